(** Property C84: requests to modify a resource are answered with a report, not with
    an exception (src/assets/schemas/patch_op.py, src/request_validators.py 815-897). *)
From Verif Require Import PyBase BaseFacts PyNum NumSpec Issues IssuesSpec IssuesFacts AttrRep AttrRepSpec AttrRepFacts Value ValueFacts
  Container ContainerSpec ContainerFacts ContainerRW Types TypesSpec Attr Schema Assets AttrSpec AttrFacts AttrHonest AttrItems PropAttr
  SchemaSpec SchemaFacts SchemaBuild PropSchema TotalSpec TotalFacts Presence PresenceSpec PresenceFacts FilterParse Path PathSpec PropPath Patch Bulk Requests PatchSpec PatchFacts PropPatch
  RequestSpec RequestFacts BodyFacts PutFacts PropPut AnswerSpec AnswerFacts PropAnswer PatchAnswerSpec PatchAnswerFacts.

Section Env.
  Context {env : PyEnv}.

  (** Every request whose operations are in good order and have a value to work on
      is read, whether or not its targets exist and its values fit.

      Full claim: this for all requests. Operations without a value to work on are
      not read (C84_null_refuted, C84_empty_refuted). *)
  Theorem C84_parse_partial : forall s l, made s -> own_names s -> distinct_names (at_top (sc_attrs s)) -> Forall calm_attr (at_top (sc_attrs s)) -> Forall standard (at_top (sc_attrs s)) ->
    Forall flat (at_top (sc_attrs s)) -> Forall in_order l -> Forall (workable s) l -> exists y iss, patch_parse s (PatchSpec.request l) = Ok (y, iss).
  Proof.
    intros s l Hm Hown Hd Hq Hst Hfl Ho Hw. destruct (outcomes_total s Hm Hown Hd Hq Hst Hfl l Ho Hw) as [outs [E _]].
    pose proof (patch_result s l (fun o v iss _ X => outcome_wf s o v iss (made_sound s Hm) X) Ho) as P. rewrite E in P. destruct P as [iss [-> _]]. eexists _, _. reflexivity.
  Qed.

  (** A request whose targets exist, with lists for multi-valued complex attributes,
      is answered, whatever its values are.

      Full claim: this for all requests; it fails for each kind of request left out
      (the refutations below). *)
  Theorem C84_answered_partial : forall s l h q, made s -> own_names s -> distinct_names (at_top (sc_attrs s)) -> Forall calm_attr (at_top (sc_attrs s)) -> Forall standard (at_top (sc_attrs s)) ->
    Forall flat (at_top (sc_attrs s)) -> Forall in_order l -> Forall (workable s) l -> Forall (apt s) l -> textual_query q ->
    exists rq iss, patch_parse_request s (PatchSpec.request l) h q = Ok (rq, iss).
  Proof. intros s l h q Hm Hown Hd Hq Hst Hfl Ho Hw Ha Ht. exact (request_total s Hm Hown Hd Hq Hst Hfl l h q Ho Hw Ha Ht). Qed.
End Env.

(** ** The shipped user schema qualifies *)

Definition flatb (a : attribute) : bool := forallb (fun b => negb (is_complex b)) (sub_attrs a).
Lemma flat_check l : forallb flatb l = true -> Forall flat l.
Proof.
  intros H. rewrite forallb_forall in H. apply Forall_forall. intros a Ha. specialize (H a Ha). unfold flatb in H. rewrite forallb_forall in H.
  apply Forall_forall. intros b Hb. specialize (H b Hb). destruct (is_complex b); [discriminate H | reflexivity].
Qed.
Lemma user_flat : Forall flat (at_top (sc_attrs user_schema)).
Proof. apply flat_check. vm_compute. reflexivity. Qed.

#[local] Existing Instance no_env.

Lemma changes_by {A} s p a (f : attribute -> A) x : changes s p a -> option_map f (find_attr (at_all (sc_attrs s)) (match p_filter p, p_sub p with Some _, Some q => q | _, _ => p_rep p end)) = Some x -> f a = x.
Proof. intros H E. rewrite (changes_found s p a H) in E. injection E as E. exact E. Qed.

Definition listsb (s : schema) (c : value) : bool :=
  match c with
  | VCont data l2o =>
      forallb (fun a => negb (is_complex a && a_multi (info a)) || match sget (lower (r_attr (arep a))) l2o with
        | Some k => match sget k data with Some (VList _) => true | Some _ => false | None => true end | None => true end) (at_top (sc_attrs s))
      && forallb (fun u => match sget (lower u) l2o with Some _ => false | None => true end) (map fst (sc_exts s))
  | _ => false
  end.
Lemma lists_check s c : listsb s c = true -> lists_several s c.
Proof.
  intros H a n x Ha [S1 S2] En Hh. destruct c; try discriminate H. cbn [listsb] in H. apply andb_true_iff in H as [H1 H2].
  rewrite forallb_forall in H1, H2. destruct Hh as [[d [l2 [k [E [G1 G2]]]]]|[u [e [Hu [[d [l2 [k [E [G1 G2]]]]] _]]]]]; injection E as -> ->.
  - specialize (H1 a Ha). unfold same_text in En. rewrite En in G1. rewrite S1, S2, G1, G2 in H1. destruct x; try discriminate H1. eexists. reflexivity.
  - specialize (H2 u Hu). rewrite G1 in H2. discriminate H2.
Qed.

(** Four operations on a user, with values that do not fit. *)
Definition ex_emails : list value := [dict_of [($"value", VInt 1)]; VStr ($"x")].
Definition ex_added : list (dkey * value) := [(KStr ($"displayName"), VInt 5); (KStr ($"emails"), VList [VStr ($"x")]); (KStr ($"nope"), VBool true)].
Definition ex_requests : list operation :=
  [mkOper ($"replace") (Some ($"userName")) (Some (VInt 5)); mkOper ($"replace") (Some ($"emails")) (Some (VList ex_emails));
   mkOper ($"add") None (Some (VDict ex_added)); mkOper ($"remove") (Some ($"emails[type eq ""work""].display")) None].
Example ex_C84 : made user_schema /\ own_names user_schema /\ distinct_names (at_top (sc_attrs user_schema)) /\ Forall calm_attr (at_top (sc_attrs user_schema))
  /\ Forall standard (at_top (sc_attrs user_schema)) /\ Forall flat (at_top (sc_attrs user_schema))
  /\ Forall in_order ex_requests /\ Forall (workable user_schema) ex_requests /\ Forall (apt user_schema) ex_requests.
Proof.
  split; [exact user_made|]. split; [exact user_own|]. split; [exact user_distinct|]. split; [exact user_calm|]. split; [exact user_standard|]. split; [exact user_flat|].
  assert (Hn : forall z, (Z.abs z < 100)%Z -> ~ overflows z 1).
  { intros z Hz G. unfold overflows in G. assert (100 < (2 ^ 1024 - 2 ^ 970) * 1)%Z by (vm_compute; reflexivity). lia. }
  split; [|split].
  - unfold ex_requests. repeat (apply Forall_cons; [split; [path_good|split; [discriminate|]];
      first [left; reflexivity | right; right; split; [reflexivity | discriminate] | right; left; split; [reflexivity|]; split; [eexists; split; [reflexivity|split; discriminate]|]]|]).
    + intros t p [=].
    + apply Forall_nil.
  - unfold ex_requests. apply Forall_cons; [|apply Forall_cons; [|apply Forall_cons; [|apply Forall_cons; [|apply Forall_nil]]]].
    + right. eexists. split; [reflexivity|]. split; [constructor; apply Hn; reflexivity | discriminate].
    + right. eexists. split; [reflexivity|]. split; [|discriminate]. constructor. apply Forall_cons; [|apply Forall_cons; [constructor; reflexivity | constructor]].
      constructor; [repeat constructor; discriminate|]. apply Forall_cons; [constructor; apply Hn; reflexivity | constructor].
    + right. eexists. split; [reflexivity|]. split.
      * constructor; [repeat (apply Forall_cons; [cbn [fst]; discriminate|]); constructor|]. apply Forall_cons; [constructor; apply Hn; reflexivity|].
        apply Forall_cons; [constructor; repeat constructor|]. apply Forall_cons; [constructor | constructor].
      * split; [intros [k H]; vm_compute in H; discriminate|]. split.
        -- intros u x Hu [d [l [k [E [H1 H2]]]]]. vm_compute in Hu. destruct Hu as [<-|[]]. vm_compute in E. injection E as <- <-. vm_compute in H1. discriminate H1.
        -- intros l [d [l2 [k [E [H1 _]]]]]. vm_compute in E. injection E as <- <-. vm_compute in H1. discriminate H1.
    + left. reflexivity.
  - unfold ex_requests. apply Forall_cons; [|apply Forall_cons; [|apply Forall_cons; [|apply Forall_cons; [|apply Forall_nil]]]].
    + intros p Hp. vm_compute in Hp. injection Hp as <-. split.
      * split; [|left; reflexivity]. destruct (denotes_by user_schema (mkRep [] ($"userName") [] false) (fun a => is_complex a) false) as [a [Ha _]]; [vm_compute; reflexivity|]. exists a. exact Ha.
      * right. intros a Hc [S _]. apply (changes_by _ _ _ is_complex false) in Hc; [|vm_compute; reflexivity]. rewrite Hc in S. discriminate S.
    + intros p Hp. vm_compute in Hp. injection Hp as <-. split.
      * split; [|left; reflexivity]. destruct (denotes_by user_schema (mkRep [] ($"emails") [] false) (fun a => is_complex a) true) as [a [Ha _]]; [vm_compute; reflexivity|]. exists a. exact Ha.
      * right. intros a Hc _. apply (changes_by _ _ _ (fun a => a_mut (info a)) ReadWrite) in Hc; [|vm_compute; reflexivity]. split; [unfold read_only; rewrite Hc; discriminate|]. eexists. reflexivity.
    + intros d Ed. injection Ed as <-. apply lists_check. vm_compute. reflexivity.
    + intros p Hp. vm_compute in Hp. injection Hp as <-. split; [|left; reflexivity]. split.
      * destruct (denotes_by user_schema (mkRep [] ($"emails") [] false) (fun a => is_complex a) true) as [a [Ha _]]; [vm_compute; reflexivity|]. exists a. exact Ha.
      * right. destruct (denotes_by user_schema (mkRep [] ($"emails") ($"display") false) (fun a => is_complex a) false) as [b [Hb _]]; [vm_compute; reflexivity|]. eexists _, b. split; [reflexivity | exact Hb].
Qed.
(** All of it is answered, with what is wrong in each operation. *)
Example ex_C84_answered : exists rq iss, patch_parse_request user_schema (PatchSpec.request ex_requests) VNone VNone = Ok (rq, iss).
Proof.
  destruct ex_C84 as [H1 [H2 [H3 [H4 [H5 [H6 [H7 [H8 H9]]]]]]]]. apply C84_answered_partial; try assumption. intros d k l [=].
Qed.

(** ** What is left out is not answered *)

Ltac ordered := repeat (apply Forall_cons; [split; [path_good|split; [discriminate|]];
  first [left; reflexivity | right; right; split; [reflexivity | discriminate]
  | right; left; split; [reflexivity|]; split; [eexists; split; [reflexivity|split; discriminate] | first [intros t p [=]; fail | intros t p [= <-] Hp; vm_compute in Hp; injection Hp as <-; intros []; reflexivity]]]|]); apply Forall_nil.

(** Requests with an operation on an attribute that does not exist. *)
Theorem C84_unknown_refuted : exists env s, made s /\ forall o,
  In o [mkOper ($"remove") (Some ($"nope")) None; mkOper ($"replace") (Some ($"nope")) (Some (VStr ($"x")))] ->
  Forall in_order [o] /\ @patch_parse_request env s (PatchSpec.request [o]) VNone VNone = Raise TypeErr.
Proof.
  exists no_env, group_schema. split; [exact group_made|].
  intros o [<-|[<-|[]]]; (split; [ordered | vm_compute; reflexivity]).
Qed.

(** Requests giving a multi-valued complex attribute something else than a list:
    null, nothing, a text, by path or in an object. *)
Theorem C84_not_list_refuted : exists env s, made s /\ forall o,
  In o [mkOper ($"replace") (Some ($"members")) (Some VNone); mkOper ($"replace") (Some ($"members")) None;
        mkOper ($"add") (Some ($"members")) (Some (VStr ($"x"))); mkOper ($"add") None (Some (VDict [(KStr ($"members"), VNone)]))] ->
  Forall in_order [o] /\ @patch_parse_request env s (PatchSpec.request [o]) VNone VNone = Raise TypeErr.
Proof.
  exists no_env, group_schema. split; [exact group_made|].
  intros o [<-|[<-|[<-|[<-|[]]]]]; (split; [ordered | vm_compute; reflexivity]).
Qed.

(** Requests replacing a read-only multi-valued complex attribute with a list. *)
Theorem C84_read_only_refuted : exists env s, made s /\
  Forall in_order [mkOper ($"replace") (Some ($"groups")) (Some (VList []))]
  /\ @patch_parse_request env s (PatchSpec.request [mkOper ($"replace") (Some ($"groups")) (Some (VList []))]) VNone VNone = Raise TypeErr.
Proof. exists no_env, user_schema. split; [exact user_made|]. split; [ordered | vm_compute; reflexivity]. Qed.

(** Operations without a path whose value is no object are not even read. *)
Theorem C84_empty_refuted : exists env s, made s /\ forall o,
  In o [mkOper ($"replace") None None; mkOper ($"replace") None (Some VNone); mkOper ($"add") None (Some (VStr ($"x")))] ->
  Forall in_order [o] /\ @patch_parse env s (PatchSpec.request [o]) = Raise TypeErr.
Proof.
  exists no_env, group_schema. split; [exact group_made|].
  intros o [<-|[<-|[<-|[]]]]; (split; [ordered | vm_compute; reflexivity]).
Qed.

(** Nor is one giving an extension's complex attribute null. *)
Definition manager_path : str := $"urn:ietf:params:scim:schemas:extension:enterprise:2.0:User:manager".
Theorem C84_null_refuted : exists env s, made s /\
  Forall in_order [mkOper ($"replace") (Some manager_path) (Some VNone)]
  /\ exists x, @patch_parse env s (PatchSpec.request [mkOper ($"replace") (Some manager_path) (Some VNone)]) = Raise x.
Proof. exists no_env, user_schema. split; [exact user_made|]. split; [ordered | eexists; vm_compute; reflexivity]. Qed.

Print Assumptions C84_parse_partial.
Print Assumptions C84_answered_partial.
Print Assumptions C84_unknown_refuted.
Print Assumptions C84_not_list_refuted.
Print Assumptions C84_read_only_refuted.
Print Assumptions C84_empty_refuted.
Print Assumptions C84_null_refuted.
