(** Vocabulary for the statement about the configuration of a server, stated
    without the functions of the model. *)
From Verif Require Import PyBase PyNum Issues AttrRep Value Container Config.

(** The entries of an option: those of a dictionary, none for anything that
    counts as false. *)
Inductive states : value -> list (dkey * value) -> Prop :=
| states_dict d : states (VDict d) d
| states_none v : truthy v = false -> states v [].

(** Dictionaries name every key once. *)
Definition distinct (d : list (dkey * value)) : Prop := NoDup (map fst d).

(** Every entry has one of the known names. *)
Definition known_names (fields : list str) (d : list (dkey * value)) : Prop :=
  forall k v, In (k, v) d -> exists f, In f fields /\ k = KStr f.

(** The value of a field: the stated one, or the default. *)
Inductive is_set (d : list (dkey * value)) (field : str) (default : value) : value -> Prop :=
| set_stated v : In (KStr field, v) d -> is_set d field default v
| set_default : (forall v, ~ In (KStr field, v) d) -> is_set d field default default.

(** An option that can only be switched on and off. *)
Definition switch (v : value) : Prop := exists d, states v d /\ distinct d /\ known_names [$"supported"] d.
(** The options with limits. *)
Definition bulk_names : list str := [$"supported"; $"max_operations"; $"max_payload_size"].
Definition filter_names : list str := [$"supported"; $"max_results"].
Definition scheme_names : list str := [$"name"; $"description"; $"spec_uri"; $"documentation_uri"; $"type"].

(** A complete description of a way to authenticate. *)
Definition complete_scheme (v : value) : Prop :=
  exists d, v = VDict d /\ distinct d /\ known_names scheme_names d /\ forall f, In f scheme_names -> exists x, In (KStr f, x) d.

(** The option [d] asks for something whose limit is not given, or zero. *)
Definition lacks (d : list (dkey * value)) (limit : str) : Prop :=
  (exists s, In (KStr ($"supported"), s) d /\ truthy s = true) /\ forall x, In (KStr limit, x) d -> truthy x = false.

(** What a caller passes. *)
Record wish := mkWish {
  w_doc : value; w_patch : value; w_bulk : value; w_filter : value; w_password : value; w_sort : value; w_etag : value;
  w_schemes : value
}.
Definition created (w : wish) : res config :=
  create_config (w_doc w) (w_patch w) (w_bulk w) (w_filter w) (w_password w) (w_sort w) (w_etag w) (w_schemes w).

(** Arguments that name only what there is: [db] and [df] are the bulk and the
    filter options, [ls] the ways to authenticate. *)
Record proper (w : wish) (db df : list (dkey * value)) (ls : list value) : Prop := mkProper {
  pr_patch : switch (w_patch w);
  pr_bulk : states (w_bulk w) db /\ distinct db /\ known_names bulk_names db;
  pr_filter : states (w_filter w) df /\ distinct df /\ known_names filter_names df;
  pr_password : switch (w_password w);
  pr_sort : switch (w_sort w);
  pr_etag : switch (w_etag w);
  pr_schemes : (w_schemes w = VList ls \/ truthy (w_schemes w) = false /\ ls = []) /\ Forall complete_scheme ls
}.

(** The switch [v] is set to [x]. *)
Definition switched (v x : value) : Prop := exists d, states v d /\ is_set d ($"supported") (VBool false) x.
(** The scheme made of a description. *)
Definition described (v : value) (s : auth_scheme) : Prop :=
  exists d, v = VDict d /\ In (KStr ($"name"), as_name s) d /\ In (KStr ($"description"), as_description s) d
  /\ In (KStr ($"spec_uri"), as_spec s) d /\ In (KStr ($"documentation_uri"), as_documentation s) d /\ In (KStr ($"type"), as_type s) d.
