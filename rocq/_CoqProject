-Q theories Verif

theories/PyBase.v
theories/Issues.v
theories/AttrRep.v
theories/PyNum.v
theories/Value.v
theories/Container.v
theories/Config.v
theories/Base64.v
theories/Types.v
theories/Attr.v
theories/Schema.v
theories/Assets.v
theories/Presence.v
theories/Match.v
theories/FilterParse.v
theories/Path.v
theories/Sort.v
theories/Patch.v
theories/ListResp.v
theories/Search.v
theories/Bulk.v
theories/SchemaS.v
theories/Requests.v
theories/BaseFacts.v
theories/IssuesSpec.v
theories/IssuesFacts.v
theories/PropIssues.v
theories/AttrRepSpec.v
theories/AttrRepFacts.v
theories/PropAttrRep.v
theories/NumFacts.v
theories/ValueFacts.v
theories/ContainerSpec.v
theories/ContainerFacts.v
theories/ContainerRW.v
theories/ContainerEq.v
theories/PropContainer.v
theories/NumSpec.v
theories/NumRound.v
theories/TypesSpec.v
theories/TypesFacts.v
theories/PropTypes.v
theories/AttrSpec.v
theories/AttrFacts.v
theories/AttrHonest.v
theories/AttrItems.v
theories/PropAttr.v
theories/SchemaSpec.v
theories/SchemaFacts.v
theories/SchemaBuild.v
theories/TotalSpec.v
theories/TotalFacts.v
theories/PropSchema.v
theories/PresenceSpec.v
theories/PresenceFacts.v
theories/PropPresence.v
theories/MatchSpec.v
theories/MatchFacts.v
theories/MatchCompare.v
theories/PropMatch.v
theories/FilterSpec.v
theories/FilterText.v
theories/FilterTotal.v
theories/FilterTree.v
theories/FilterMask.v
theories/FilterNum.v
theories/FilterRound.v
theories/FilterLit.v
theories/FilterSame.v
theories/PropFilter.v
theories/SortSpec.v
theories/SortFacts.v
theories/PropSort.v
theories/PathSpec.v
theories/PathFacts.v
theories/PropPath.v
theories/JsonCheck.v
theories/PatchSpec.v
theories/PatchFacts.v
theories/PropPatch.v
theories/RequestSpec.v
theories/RequestFacts.v
theories/MsgFacts.v
theories/BodyFacts.v
theories/PropRequest.v
theories/PutFacts.v
theories/PropPut.v
theories/ListSpec.v
theories/ListFacts.v
theories/PropList.v
theories/BulkSpec.v
theories/BulkFacts.v
theories/PropBulk.v
theories/PatchShapeSpec.v
theories/PatchShapeFacts.v
theories/PropPatchShape.v
theories/BulkOpSpec.v
theories/BulkOpFacts.v
theories/PropBulkOp.v
theories/ListReqSpec.v
theories/PropListReq.v
theories/SearchSpec.v
theories/PropSearch.v
theories/SelfSpec.v
theories/SelfFacts.v
theories/SelfDump.v
theories/PropSelf.v
theories/BulkRespSpec.v
theories/BulkRespFacts.v
theories/BulkRespLoop.v
theories/PropBulkResp.v
theories/ListItemSpec.v
theories/ListItemFacts.v
theories/PropListItem.v
theories/ConfigSpec.v
theories/PropConfig.v
theories/RoundSpec.v
theories/RoundFacts.v
theories/RoundAgain.v
theories/RoundSchema.v
theories/PropRound.v
theories/FileSpec.v
theories/FileFacts.v
theories/PropFile.v
theories/Dates.v
theories/DatesSpec.v
theories/DatesFacts.v
theories/PropDates.v
theories/Urls.v
theories/UrlSpec.v
theories/UrlFacts.v
theories/PropUrl.v
theories/Messages.v
theories/MessageSpec.v
theories/PropMessage.v
theories/HostSpec.v
theories/PropHost.v
theories/ConformSpec.v
theories/ConformFacts.v
theories/ConformDoc.v
theories/PropConform.v
theories/CatalogSpec.v
theories/CatalogFacts.v
theories/PropCatalog.v
theories/ServedSpec.v
theories/ServedFacts.v
theories/PropServed.v
theories/Making.v
theories/MakingSpec.v
theories/PropMaking.v
theories/ScimErrors.v
theories/FaultSpec.v
theories/PropFault.v
theories/PathEq.v
theories/PathEqSpec.v
theories/PropPathEq.v
theories/AnswerSpec.v
theories/AnswerFacts.v
theories/PropAnswer.v
theories/QuerySpec.v
theories/PropQuery.v
theories/PatchAnswerSpec.v
theories/PatchAnswerFacts.v
theories/PropPatchAnswer.v
theories/ReplySpec.v
theories/ReplyFacts.v
theories/PropReply.v
theories/FindAnswerSpec.v
theories/FindAnswerFacts.v
theories/PropFindAnswer.v
theories/AskFacts.v
theories/PageSpec.v
theories/PageFacts.v
theories/PropPage.v
