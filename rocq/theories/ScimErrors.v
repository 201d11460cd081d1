(** The documents of /repo/src/assets/scim_error.py. *)
From Verif Require Import PyBase Value Attr.

(** One document: {"status": "400", "scimType": kind, "detail": text}
    (src/assets/scim_error.py 1-88). *)
Definition scim_error (kind text : str) : list (str * value) :=
  [($"status", VStr ($"400")); ($"scimType", VStr kind); ($"detail", VStr text)].

(** INVALID_FILTER, TOO_MANY, UNIQUENESS, MUTABILITY, INVALID_SYNTAX,
    INVALID_PATH, NO_TARGET, INVALID_VALUE, INVALID_VERS and SENSITIVE
    (src/assets/scim_error.py 1-88). *)
Definition scim_errors : list (list (str * value)) :=
  [scim_error ($"invalidFilter") ($"The specified filter syntax is invalid, or the specified attribute and filter comparison combination is not supported.");
   scim_error ($"tooMany") ($"The specified filter yields many more results than the server is willing to calculateor process.");
   scim_error ($"uniqueness") ($"One or more of the attribute values are already in use or are reserved.");
   scim_error ($"mutability") ($"The attempted modification is not compatible with the target attribute's mutability or current state.");
   scim_error ($"invalidSyntax") ($"The request body message structure was invalid or did not conform to the request schema.");
   scim_error ($"invalidPath") ($"The 'path' attribute was invalid or malformed.");
   scim_error ($"noTarget") ($"The specified 'path' did not yield an attribute or attribute value that could be operated on.");
   scim_error ($"invalidValue") ($"A required value was missing, or the value specified was not compatible with the operation or attribute type, or resource schema.");
   scim_error ($"invalidVers") ($"The specified SCIM protocol version is not supported.");
   scim_error ($"sensitive") ($"The specified request cannot be completed, due to the passing of sensitive information in a request URI.")].
