(** Property C74, continued: hosts in brackets. *)
From Coq Require Import Lia.
From Verif Require Import PyBase BaseFacts FilterText PyNum Issues IssuesSpec IssuesFacts AttrRep Value Types TypesSpec Attr Schema Assets PropAttr PropRequest Dates Urls UrlSpec UrlFacts HostSpec PropUrl.

(** ** Pieces *)

Lemma pieces_some c s : pieces c s <> [].
Proof. destruct s as [|x s]; cbn [pieces]; [discriminate|]. destruct (Ascii.eqb c x); [discriminate|]. destruct (pieces c s); discriminate. Qed.
Fixpoint joined (c : ascii) (l : list str) : str := match l with [] => [] | [g] => g | g :: t => g ++ c :: joined c t end.
Lemma joined_more c g l : l <> [] -> joined c (g :: l) = g ++ c :: joined c l.
Proof. destruct l; [intros H; destruct (H eq_refl) | reflexivity]. Qed.
Lemma joined_pieces c s : joined c (pieces c s) = s.
Proof.
  induction s as [|x s IH]; [reflexivity|]. cbn [pieces]. pose proof (pieces_some c s) as N. destruct (Ascii.eqb_spec c x) as [<-|].
  - rewrite joined_more by exact N. rewrite IH. reflexivity.
  - destruct (pieces c s) as [|p ps]; [destruct (N eq_refl)|]. destruct ps as [|q ps]; [cbn [joined] in IH |- *; rewrite IH; reflexivity|]. rewrite joined_more in IH |- * by discriminate. cbn [app]. rewrite IH. reflexivity.
Qed.
Lemma pieces_free c s g : In g (pieces c s) -> ~ In c g.
Proof.
  revert g. induction s as [|x s IH]; intros g I; cbn [pieces] in I.
  - destruct I as [<-|[]]. intros [].
  - destruct (Ascii.eqb_spec c x) as [<-|N]; [destruct I as [<-|I]; [intros [] | exact (IH g I)]|]. pose proof (pieces_some c s) as Q. destruct (pieces c s) as [|p ps]; [destruct (Q eq_refl)|]. destruct I as [<-|I].
    + intros [J|J]; [exact (N (eq_sym J)) | exact (IH p (or_introl eq_refl) J)].
    + exact (IH g (or_intror I)).
Qed.
Lemma pieces_joined c l : l <> [] -> (forall g, In g l -> ~ In c g) -> pieces c (joined c l) = l.
Proof.
  induction l as [|g l IH]; intros N F; [destruct (N eq_refl)|]. destruct l as [|h l].
  - cbn [joined]. apply pieces_one. apply F. left. reflexivity.
  - rewrite joined_more by discriminate. rewrite pieces_sep by (apply F; left; reflexivity). f_equal. apply IH; [discriminate|]. intros k I. apply F. right. exact I.
Qed.
Lemma joined_app c a b : a <> [] -> b <> [] -> joined c (a ++ b) = joined c a ++ c :: joined c b.
Proof.
  intros N M. induction a as [|g a IH]; [destruct (N eq_refl)|]. destruct a as [|h a].
  - cbn [app]. rewrite joined_more by exact M. reflexivity.
  - change ((g :: h :: a) ++ b) with (g :: (h :: a) ++ b). rewrite (joined_more c g ((h :: a) ++ b)) by discriminate. rewrite IH by discriminate. rewrite (joined_more c g (h :: a)) by discriminate. rewrite <- app_assoc. reflexivity.
Qed.
Lemma colons_joined l : colons l = joined ":" l.
Proof. induction l as [|g l IH]; [reflexivity|]. destruct l as [|h l]; [reflexivity|]. change (colons (g :: h :: l)) with (g ++ ":"%char :: colons (h :: l)). rewrite joined_more by discriminate. rewrite IH. reflexivity. Qed.

(** ** Addresses of six kinds *)

Lemma hextet_group g : hextet g = true -> group g.
Proof.
  unfold hextet. intros H. apply andb_prop in H as [H F]. apply andb_prop in H as [N L]. apply negb_true_iff, Nat.eqb_neq in N. apply Nat.leb_le in L. split; [lia|]. apply Forall_forall. intros x I. apply hex_In. rewrite forallb_forall in F. exact (F x I).
Qed.
Lemma hextets_groups l : forallb hextet l = true -> Forall group l.
Proof. intros H. apply Forall_forall. intros g I. apply hextet_group. rewrite forallb_forall in H. exact (H g I). Qed.
Lemma blank_nil s : blank s = true -> s = [].
Proof. destruct s; [reflexivity | discriminate]. Qed.
Lemma ends_joined l : joined ":" (ends l) = colons l.
Proof. rewrite colons_joined. destruct l; reflexivity. Qed.
Lemma ends_some l : ends l <> [].
Proof. destruct l; discriminate. Qed.
Lemma split_at {A} (l : list A) i d : (i < length l)%nat -> l = firstn i l ++ nth i l d :: skipn (S i) l.
Proof. revert l. induction i as [|i IH]; intros [|x l] H; cbn in H; try lia; [reflexivity|]. cbn [firstn nth skipn app]. f_equal. apply IH. lia. Qed.
Lemma skipn_last {A} (l : list A) d : l <> [] -> skipn (length l - 1) l = [nth (length l - 1) l d].
Proof.
  induction l as [|x l IH]; intros N; [destruct (N eq_refl)|]. destruct l as [|y l]; [reflexivity|]. replace (length (x :: y :: l) - 1)%nat with (S (length (y :: l) - 1)) by (cbn; lia). cbn [skipn nth]. apply IH. discriminate.
Qed.
Lemma parts_six p : (3 <= length p)%nat -> ipv6_parts p = true -> six (joined ":" p).
Proof.
  intros L H. unfold ipv6_parts in H. destruct (gaps p) as [|i [|j l]] eqn:G; [| |discriminate H].
  - apply andb_prop in H as [H F]. apply Nat.eqb_eq in H. rewrite <- colons_joined. apply six_full; [exact (hextets_groups p F) | exact H].
  - assert (I : In i (gaps p)) by (rewrite G; left; reflexivity). unfold gaps in I. apply filter_In in I as [I B]. apply in_seq in I. apply blank_nil in B.
    apply andb_prop in H as [H F2]. apply andb_prop in H as [H F1]. apply andb_prop in H as [H N]. apply andb_prop in H as [H1 H2]. apply Nat.leb_le in N.
    set (hi := if blank (nth 0 p []) then (i - 1)%nat else i) in *. set (lo := if blank (nth (length p - 1) p []) then (length p - i - 2)%nat else (length p - i - 1)%nat) in *.
    assert (E1 : ends (firstn hi p) = firstn i p).
    { unfold hi in *. destruct (blank (nth 0 p [])) eqn:Q.
      - cbn [negb orb] in H1. apply Nat.eqb_eq in H1. rewrite H1. assert (i = 1)%nat by lia. subst i. apply blank_nil in Q. destruct p as [|g p]; [cbn in L; lia|]. cbn [nth] in Q. subst g. reflexivity.
      - destruct p as [|g p]; [cbn in L; lia|]. destruct i; [lia|]. reflexivity. }
    assert (E2 : ends (skipn (length p - lo) p) = skipn (S i) p).
    { unfold lo in *. destruct (blank (nth (length p - 1) p [])) eqn:Q.
      - cbn [negb orb] in H2. apply Nat.eqb_eq in H2. rewrite H2. rewrite Nat.sub_0_r, skipn_all. cbn [ends]. assert (Ei : S i = (length p - 1)%nat) by lia. rewrite Ei. apply blank_nil in Q.
        assert (Sp : skipn (length p - 1) p = [nth (length p - 1) p []]) by (apply skipn_last; intros Z; rewrite Z in L; cbn in L; lia).
        rewrite Sp, Q. reflexivity.
      - replace (length p - (length p - i - 1))%nat with (S i) by lia. destruct (skipn (S i) p) eqn:K; [|reflexivity]. apply (f_equal (@length str)) in K. rewrite skipn_length in K. cbn in K. lia. }
    assert (E : p = ends (firstn hi p) ++ [] :: ends (skipn (length p - lo) p)) by (rewrite E1, E2; pose proof (split_at p i [] ltac:(lia)) as Z; rewrite B in Z; exact Z).
    rewrite E. rewrite joined_app by (first [apply ends_some | discriminate]). rewrite joined_more by apply ends_some. rewrite !ends_joined.
    apply (six_short (firstn hi p) (skipn (length p - lo) p)); [exact (hextets_groups _ F1) | exact (hextets_groups _ F2)|].
    rewrite firstn_length, skipn_length. lia.
Qed.
Lemma six_parts p : p <> [] -> (forall g, In g p -> ~ In ":"%char g) -> six (joined ":" p) -> ipv6_parts p = true /\ (length p <= 9)%nat /\ (3 <= length p)%nat.
Proof.
  intros N F S. pose proof (pieces_joined ":" p N F) as E. inversion S as [gs H L Q|hi lo H L M Q].
  - rewrite <- Q in E. rewrite pieces_colons in E by (try assumption; intros ->; discriminate L). subst gs. split; [exact (full_parts p H L) | unfold str in *; lia].
  - rewrite <- Q in E. change (pieces ":" (colons hi ++ $"::" ++ colons lo) = p) in E. rewrite (short_pieces hi lo H L) in E. rewrite <- E. split; [exact (short_parts hi lo H L M)|]. rewrite app_length. cbn [length]. destruct hi, lo; cbn [ends length] in *; unfold str in *; lia.
Qed.

(** Four numbers. *)
Definition figures : str := $"0123456789".
Lemma decimal_In c : is_decimal c = true <-> In c figures.
Proof. rewrite <- in_text_In. revert c. assert (K : forall c, Bool.eqb (is_decimal c) (in_text figures c) = true) by (apply ascii_all; intros [] [] [] [] [] [] [] []; reflexivity). intros c. specialize (K c). apply Bool.eqb_prop in K. rewrite K. tauto. Qed.
Lemma octets_all : forallb (fun a => forallb (fun b => forallb (fun c => forallb (fun s => implb (octet s) (existsb (str_eqb s) (map dec_of_nat (seq 0 256)))) [[a]; [a; b]; [a; b; c]]) figures) figures) figures = true.
Proof. vm_compute. reflexivity. Qed.
Lemma octet_text s : octet s = true -> exists n, (n <= 255)%nat /\ s = dec_of_nat n.
Proof.
  intros O. assert (F : forall x, In x s -> In x figures).
  { intros x I. apply decimal_In. destruct s as [|c t]; [discriminate O|]. unfold octet in O. apply andb_prop in O as [O _]. apply andb_prop in O as [O _]. apply andb_prop in O as [O _]. rewrite forallb_forall in O. exact (O x I). }
  assert (L : (length s <= 3)%nat) by (destruct s as [|c t]; [cbn; lia|]; unfold octet in O; apply andb_prop in O as [O _]; apply andb_prop in O as [O _]; apply andb_prop in O as [_ O]; apply Nat.leb_le in O; exact O).
  assert (E : existsb (str_eqb s) (map dec_of_nat (seq 0 256)) = true).
  { pose proof octets_all as K. assert (Z : In "0"%char figures) by (left; reflexivity). destruct s as [|a [|b [|c [|d s]]]]; [discriminate O| | | |cbn in L; lia].
    - rewrite forallb_forall in K. specialize (K a (F a (or_introl eq_refl))). rewrite forallb_forall in K. specialize (K _ Z). rewrite forallb_forall in K. specialize (K _ Z). cbn [forallb] in K. apply andb_prop in K as [K _]. rewrite O in K. exact K.
    - rewrite forallb_forall in K. specialize (K a (F a (or_introl eq_refl))). rewrite forallb_forall in K. specialize (K b (F b (or_intror (or_introl eq_refl)))). rewrite forallb_forall in K. specialize (K _ Z). cbn [forallb] in K. apply andb_prop in K as [_ K]. apply andb_prop in K as [K _]. rewrite O in K. exact K.
    - rewrite forallb_forall in K. specialize (K a (F a (or_introl eq_refl))). rewrite forallb_forall in K. specialize (K b (F b (or_intror (or_introl eq_refl)))). rewrite forallb_forall in K. specialize (K c (F c (or_intror (or_intror (or_introl eq_refl))))). cbn [forallb] in K. apply andb_prop in K as [_ K]. apply andb_prop in K as [_ K]. apply andb_prop in K as [K _]. rewrite O in K. exact K. }
  apply existsb_exists in E as [x [I E]]. apply str_eqb_eq in E. subst x. apply in_map_iff in I as [n [E I]]. apply in_seq in I. exists n. split; [lia | symmetry; exact E].
Qed.
Lemma octets_made : forallb (fun n => octet (dec_of_nat n)) (seq 0 256) = true.
Proof. vm_compute. reflexivity. Qed.
Lemma octet_made n : (n <= 255)%nat -> octet (dec_of_nat n) = true.
Proof. intros H. pose proof octets_made as K. rewrite forallb_forall in K. apply K, in_seq. lia. Qed.
Lemma octet_free s c : octet s = true -> ~ In c figures -> ~ In c s.
Proof.
  intros O N I. apply N, decimal_In. destruct s as [|x t]; [discriminate O|]. unfold octet in O. apply andb_prop in O as [O _]. apply andb_prop in O as [O _]. apply andb_prop in O as [O _]. rewrite forallb_forall in O. exact (O c I).
Qed.
Lemma no_figure c : in_text figures c = false -> ~ In c figures.
Proof. intros H I. apply in_text_In in I. congruence. Qed.
Lemma ipv4_quad s : ipv4 s = true <-> quad s.
Proof.
  split.
  - unfold ipv4. intros H. pose proof (joined_pieces "." s) as J. destruct (pieces "." s) as [|a [|b [|c [|d [|e l]]]]]; try discriminate H. cbn [length Nat.eqb andb forallb] in H.
    apply andb_prop in H as [A H]. apply andb_prop in H as [B H]. apply andb_prop in H as [C H]. apply andb_prop in H as [D _].
    apply octet_text in A as [na [La ->]], B as [nb [Lb ->]], C as [nc [Lc ->]], D as [nd [Ld ->]]. rewrite <- J. exact (a_quad na nb nc nd La Lb Lc Ld).
  - intros [a b c d A B C D]. unfold ipv4. apply octet_made in A, B, C, D. assert (N : ~ In "."%char figures) by (apply no_figure; reflexivity).
    change (dec_of_nat a ++ $"." ++ dec_of_nat b ++ $"." ++ dec_of_nat c ++ $"." ++ dec_of_nat d) with (joined "." [dec_of_nat a; dec_of_nat b; dec_of_nat c; dec_of_nat d]).
    rewrite pieces_joined; [cbn [length Nat.eqb andb forallb]; rewrite A, B, C, D; reflexivity | discriminate|].
    intros g [<-|[<-|[<-|[<-|[]]]]]; apply octet_free; assumption.
Qed.
Lemma quad_free q c : quad q -> in_text ("."%char :: figures) c = false -> ~ In c q.
Proof.
  intros [x y z w A B C D] N I. apply octet_made in A, B, C, D. assert (M : ~ In c figures) by (intros J; assert (T : in_text ("."%char :: figures) c = true) by (apply in_text_In; right; exact J); congruence).
  assert (P : ~ In c ($".")) by (intros [J|[]]; subst c; discriminate N).
  apply in_app_or in I as [I|I]; [exact (octet_free _ c A M I)|]. apply in_app_or in I as [I|I]; [exact (P I)|]. apply in_app_or in I as [I|I]; [exact (octet_free _ c B M I)|]. apply in_app_or in I as [I|I]; [exact (P I)|].
  apply in_app_or in I as [I|I]; [exact (octet_free _ c C M I)|]. apply in_app_or in I as [I|I]; [exact (P I) | exact (octet_free _ c D M I)].
Qed.
Lemma quad_dot q : quad q -> has "." q = true.
Proof. intros [a b c d _ _ _ _]. apply has_In. apply in_or_app. right. left. reflexivity. Qed.

(** The text without a zone. *)
Definition bare6 (a : str) : bool :=
  let p := pieces ":" a in
  if Nat.ltb (length p) 3 then false
  else let last := nth (length p - 1) p [] in
       if has "." last then if ipv4 last then let q := removelast p ++ [$"0"; $"0"] in Nat.leb (length q) 9 && ipv6_parts q else false
       else Nat.leb (length p) 9 && ipv6_parts p.
Lemma last_nth {A} (l : list A) d : l <> [] -> nth (length l - 1) l d = last l d.
Proof.
  induction l as [|x l IH]; intros N; [destruct (N eq_refl)|]. destruct l as [|y l]; [reflexivity|]. cbn [length last]. replace (S (S (length l)) - 1)%nat with (S (length (y :: l) - 1)) by (cbn; lia). cbn [nth]. apply IH. discriminate.
Qed.
Lemma zero_free : ~ In ":"%char ($"0").
Proof. intros [H|[]]. discriminate H. Qed.
Lemma bare6_address a : bare6 a = true <-> address a.
Proof.
  split.
  - unfold bare6. intros H. pose proof (joined_pieces ":" a) as J. pose proof (pieces_free ":" a) as F. set (p := pieces ":" a) in *. destruct (Nat.ltb_spec (length p) 3) as [|L]; [discriminate H|].
    assert (N : p <> []) by (intros Q; rewrite Q in L; cbn in L; lia). rewrite (last_nth p ([] : str) N) in H. destruct (has "." (last p [])) eqn:D.
    + destruct (ipv4 (last p [])) eqn:V; [|discriminate H]. apply andb_prop in H as [_ H]. apply ipv4_quad in V. pose proof (app_removelast_last ([] : str) N) as E.
      assert (Nr : removelast p <> []) by (intros Q; rewrite Q in E; rewrite E in L; cbn in L; lia).
      rewrite <- J, E. rewrite joined_app by (first [exact Nr | discriminate]). cbn [joined]. apply (ad_quad (joined ":" (removelast p)) (last p [])); [exact V|].
      apply parts_six in H; [|rewrite app_length; assert (length p = length (removelast p) + 1)%nat by (rewrite E at 1; rewrite app_length; reflexivity); cbn [length]; lia].
      rewrite joined_app in H by (first [exact Nr | discriminate]). exact H.
    + apply andb_prop in H as [_ H]. apply ad_six. rewrite <- J. exact (parts_six p L H).
  - intros [h S|r q Q S].
    + unfold bare6. pose proof (joined_pieces ":" h) as J. pose proof (pieces_free ":" h) as F. pose proof (pieces_some ":" h) as N. pose proof (six_chars h S) as C. set (p := pieces ":" h) in *.
      assert (D : has "." (nth (length p - 1) p []) = false).
      { apply has_not. intros I. assert (K : In "."%char h).
        { rewrite <- J. rewrite (app_removelast_last ([] : str) N). rewrite (last_nth p ([] : str) N) in I. destruct (removelast p) as [|x l] eqn:R; [exact I|]. rewrite joined_app by discriminate. apply in_or_app. right. right. exact I. }
        exact (host_without "." h C eq_refl K). }
      rewrite <- J in S. destruct (six_parts p N F S) as [P [L1 L2]]. destruct (Nat.ltb_spec (length p) 3) as [|_]; [unfold str in *; lia|]. rewrite D, P. rewrite andb_true_r. apply Nat.leb_le. exact L1.
    + unfold bare6. pose proof (joined_pieces ":" r) as J. pose proof (pieces_free ":" r) as F. pose proof (pieces_some ":" r) as N. set (p := pieces ":" r) in *.
      assert (Nq : ~ In ":"%char q) by (apply (quad_free q); [exact Q | reflexivity]).
      assert (E : pieces ":" (r ++ $":" ++ q) = p ++ [q]).
      { rewrite <- J. change ($":" ++ q) with (":"%char :: joined ":" [q]). rewrite <- joined_app by (first [exact N | discriminate]). apply pieces_joined; [destruct p; discriminate|]. intros g I. apply in_app_or in I as [I|[<-|[]]]; [exact (F g I) | exact Nq]. }
      rewrite E. assert (S' : six (joined ":" (p ++ [$"0"; $"0"]))) by (rewrite joined_app by (first [exact N | discriminate]); rewrite J; exact S).
      destruct (six_parts (p ++ [$"0"; $"0"])) as [P [L1 L2]]; [destruct p; discriminate | intros g I; apply in_app_or in I as [I|[<-|[<-|[]]]]; [exact (F g I) | apply zero_free | apply zero_free] | exact S'|].
      assert (L3 : (2 <= length p)%nat).
      { destruct p as [|x [|y l]]; [destruct (N eq_refl)| |cbn; lia]. exfalso. cbn [app] in P. unfold ipv6_parts, gaps in P. cbn [length Nat.sub seq] in P. cbn [filter nth blank length Nat.eqb] in P. discriminate P. }
      rewrite app_length in *. cbn [length] in *. destruct (Nat.ltb_spec (length p + 1) 3) as [|_]; [unfold str in *; lia|].
      replace (length p + 1 - 1)%nat with (length p + 0)%nat by lia. rewrite app_nth2_plus. cbn [nth]. rewrite (quad_dot q Q). rewrite (proj2 (ipv4_quad q) Q). rewrite removelast_last.
      rewrite app_length. cbn [length]. rewrite P. rewrite andb_true_r. apply Nat.leb_le. exact L1.
Qed.
Lemma ipv6_is s : ipv6 s = let '(a, sep, z) := parted "%" s in if sep && (blank z || has "%" z) then false else bare6 a.
Proof. reflexivity. Qed.
Lemma parted_spec c s : exists a, (parted c s = (a, false, []) /\ s = a /\ ~ In c a) \/ exists z, parted c s = (a, true, z) /\ s = a ++ c :: z /\ ~ In c a.
Proof.
  unfold parted. pose proof (up_to_spec (Ascii.eqb c) s) as U. destruct (up_to (Ascii.eqb c) s) as [a b]. destruct U as [E [F B]]. exists a.
  assert (N : ~ In c a) by (intros I; rewrite forallb_forall in F; apply F in I; rewrite Ascii.eqb_refl in I; discriminate I).
  destruct b as [|x b]; [left; rewrite app_nil_r in E; auto|]. destruct B as [B|B]; [discriminate B|]. cbn [peek] in B. apply Ascii.eqb_eq in B. subst x. right. exists b. auto.
Qed.
Lemma address_chars h : address h -> Forall (fun x => In x (":"%char :: "."%char :: hex_figures)) h.
Proof.
  intros [t S|p q Q S].
  - eapply Forall_impl; [|exact (six_chars t S)]. intros x [I|I]; [left; exact I | right; right; exact I].
  - apply six_chars in S. apply Forall_app in S as [S _]. apply Forall_app. split; [eapply Forall_impl; [|exact S]; intros x [I|I]; [left; exact I | right; right; exact I]|].
    constructor; [left; reflexivity|]. apply Forall_forall. intros x I. destruct (in_text ("."%char :: figures) x) eqn:T; [|destruct (quad_free q x Q T I)].
    apply in_text_In in T as [T|T]; [right; left; exact T | right; right]. cbn in T. cbn. tauto.
Qed.
Lemma address_without h c : address h -> in_text (":"%char :: "."%char :: hex_figures) c = false -> ~ In c h.
Proof. intros A N I. pose proof (address_chars h A) as F. rewrite Forall_forall in F. apply F, in_text_In in I. congruence. Qed.
Lemma address_some h : address h -> h <> [].
Proof. intros A ->. apply bare6_address in A. discriminate A. Qed.
Lemma ipv6_literal s : ipv6 s = true <-> address s \/ exists h z, s = h ++ $"%" ++ z /\ address h /\ z <> [] /\ ~ In "%"%char z.
Proof.
  rewrite ipv6_is. split.
  - destruct (parted_spec "%" s) as [a [[-> [-> N]]|[z [-> [-> N]]]]].
    + cbn [andb]. intros H. left. apply bare6_address, H.
    + cbn [andb]. destruct (blank z) eqn:B; [discriminate|]. cbn [orb]. destruct (has "%" z) eqn:P; [discriminate|]. intros H. right. exists a, z. split; [reflexivity|]. split; [apply bare6_address, H|]. split; [intros ->; discriminate B | apply has_not, P].
  - intros [A|[h [z [-> [A [N P]]]]]].
    + rewrite (parted_none "%" s) by (apply (address_without s); [exact A | reflexivity]). cbn [andb]. apply bare6_address, A.
    + change ($"%" ++ z) with ("%"%char :: z). rewrite parted_at by (apply (address_without h); [exact A | reflexivity]). apply has_not in P as ->. replace (blank z) with false by (destruct z; [destruct (N eq_refl) | reflexivity]). cbn [andb orb]. apply bare6_address, A.
Qed.
Lemma bracketed_literal h : bracketed_host h = true <-> literal h.
Proof.
  assert (V : ~ In "v"%char (":"%char :: "."%char :: hex_figures)) by (intros I; apply in_text_In in I; discriminate I).
  assert (NV : forall t, address ("v"%char :: t) -> False) by (intros t A; apply (address_without _ "v" A); [reflexivity | left; reflexivity]).
  split.
  - destruct h as [|c t]; [discriminate|]. unfold bracketed_host. destruct (Ascii.eqb_spec c "v") as [->|N].
    + pose proof (up_to_spec (fun c => negb (is_hex c)) t) as U. destruct (up_to _ t) as [x r]. destruct U as [-> [F B]]. intros H. apply andb_prop in H as [H H3]. apply andb_prop in H as [H1 H2].
      destruct r as [|y r]; [discriminate H3|]. cbn [peek tl] in H2, H3. apply Ascii.eqb_eq in H2. subst y. apply (li_future x r).
      * intros ->. discriminate H1.
      * apply Forall_forall. intros z I. rewrite forallb_forall in F. apply F in I. rewrite negb_involutive in I. apply hex_In, I.
      * intros ->. discriminate H3.
    + intros H. apply ipv6_literal in H as [A|[g [z [-> [A [Nz P]]]]]]; [apply li_plain, A | apply li_zone; assumption].
  - intros L. assert (K : forall s, address s \/ (exists g z, s = g ++ $"%" ++ z /\ address g /\ z <> [] /\ ~ In "%"%char z) -> bracketed_host s = true).
    { intros s Q. pose proof (proj2 (ipv6_literal s) Q) as E. unfold bracketed_host. destruct s as [|c t]; [discriminate E|]. destruct (Ascii.eqb_spec c "v") as [->|]; [|exact E]. exfalso. destruct Q as [A|[g [z [G [A _]]]]]; [exact (NV t A)|].
      destruct g as [|x g]; [exact (address_some [] A eq_refl)|]. injection G as <- _. exact (NV g A). }
    destruct L as [s A|g z A N P|v t N F M].
    + apply K. left. exact A.
    + apply K. right. exists g, z. auto.
    + change ($"v" ++ v ++ $"." ++ t) with ("v"%char :: v ++ "."%char :: t). unfold bracketed_host. rewrite Ascii.eqb_refl. rewrite up_to_app; [|apply forallb_forall; intros x I; rewrite negb_involutive; apply hex_In; rewrite Forall_forall in F; exact (F x I) | right; reflexivity].
      cbn [peek tl]. destruct v; [destruct (N eq_refl)|]. destruct t; [destruct (M eq_refl) | reflexivity].
Qed.

(** ** Authorities *)

Lemma netloc_exact a : Forall (fun x => ~ In x ($"/?#")) a -> (netloc_ok a = true <-> bare a \/ in_brackets a).
Proof.
  intros F. split.
  - unfold netloc_ok. intros H. apply andb_prop in H as [B H]. destruct (has "[" a) eqn:O.
    + apply andb_prop in H as [C H]. right. split; [exact F|]. destruct (parted_spec "[" a) as [u [[P [E N]]|[r [P [E N]]]]]; [subst u; apply has_In in O; destruct (N O)|]. rewrite P in H. subst a. apply has_In in C.
      destruct (parted_spec "]" r) as [h [[Q [E' M]]|[t [Q [E' M]]]]]; rewrite Q in H; subst r; apply bracketed_literal in H.
      * apply bx_open; try assumption. apply in_app_or in C as [C|[C|C]]; [exact C | discriminate C | destruct (M C)].
      * exact (bx_closed u h t N M H).
    + left. apply negb_true_iff in H. apply has_not in O, H. split; [intros ->; discriminate B|]. apply Forall_forall. intros x I. rewrite Forall_forall in F. specialize (F x I). intros K. cbn in K, F. destruct K as [K|[K|[K|[K|[K|[]]]]]]; subst x; tauto.
  - intros [[N G]|[_ X]].
    + rewrite bare_ok by (intros I; rewrite Forall_forall in G; apply (G _ I); cbn; tauto). destruct a; [destruct (N eq_refl) | reflexivity].
    + destruct X as [u h p N M L|u h N C M L]; apply bracketed_literal in L; unfold netloc_ok.
      * change ($"[" ++ h ++ $"]" ++ p) with ("["%char :: h ++ "]"%char :: p). rewrite (proj2 (has_In "[" (u ++ "["%char :: h ++ "]"%char :: p))) by (apply in_or_app; right; left; reflexivity).
        rewrite (proj2 (has_In "]" (u ++ "["%char :: h ++ "]"%char :: p))) by (apply in_or_app; right; right; apply in_or_app; right; left; reflexivity).
        rewrite parted_at by exact N. rewrite parted_at by exact M. rewrite L. destruct u; reflexivity.
      * change ($"[" ++ h) with ("["%char :: h). rewrite (proj2 (has_In "[" (u ++ "["%char :: h))) by (apply in_or_app; right; left; reflexivity).
        rewrite (proj2 (has_In "]" (u ++ "["%char :: h))) by (apply in_or_app; left; exact C). rewrite parted_at by exact N. rewrite (parted_none "]" h M). rewrite L. destruct u; reflexivity.
Qed.

(** ** The theorems *)

(** Exactly which texts are accepted; every other text is reported. *)
Theorem C74_exact : forall m s,
  (@type_proc py311 m TExternalRef (VStr s) = Ok (pass (VStr s)) <-> exists u, tidied s u /\ absolute (fun a => bare a \/ in_brackets a) u)
  /\ (@type_proc py311 m TExternalRef (VStr s) = Ok (fail (e_bad_url s)) <-> ~ exists u, tidied s u /\ absolute (fun a => bare a \/ in_brackets a) u).
Proof.
  intros m s. assert (T : @type_proc py311 m TExternalRef (VStr s) = Ok (if abs_url s then pass (VStr s) else fail (e_bad_url s))) by (destruct m; reflexivity).
  assert (Q : abs_url s = true <-> exists u, tidied s u /\ absolute (fun a => bare a \/ in_brackets a) u).
  { split.
    - intros H. destruct (abs_url_found s H) as [sc [a [t [E [Hs [Ha [Ht Hn]]]]]]]. exists (cleaned s). split; [apply tidied_is; reflexivity|]. rewrite E. constructor; [exact Hs | exact (proj1 (netloc_exact a Ha) Hn) | exact Ht].
    - intros [u [Tu A]]. apply tidied_is in Tu. destruct A as [sc a t Hs Ha Ht]. assert (F : Forall (fun x => ~ In x ($"/?#")) a).
      { destruct Ha as [[_ F]|[F _]]; [|exact F]. eapply Forall_impl; [|exact F]. intros x N I. apply N. cbn in *. tauto. }
      rewrite (abs_url_made s sc a t (eq_sym Tu) Hs F Ht). exact (proj2 (netloc_exact a F) Ha). }
  rewrite T. rewrite <- Q. destruct (abs_url s); split; split; intros H; try reflexivity; try discriminate H; try (intros F; discriminate F); exfalso; apply H; reflexivity.
Qed.

(** ** Concrete cases *)

Example ex_C74_literal : literal ($"::ffff:192.0.2.1") /\ literal ($"fe80::1%eth0") /\ literal ($"v1.x") /\ ~ literal ($"1:2:3") /\ ~ literal ($"::256.1.1.1") /\ ~ literal ($"::12345").
Proof.
  split; [apply bracketed_literal; vm_compute; reflexivity|]. split; [apply bracketed_literal; vm_compute; reflexivity|]. split; [apply bracketed_literal; vm_compute; reflexivity|].
  split; [|split]; intros L; apply bracketed_literal in L; vm_compute in L; discriminate L.
Qed.
Example ex_C74_boxes : in_brackets ($"u@[::1]:80").
Proof.
  split; [apply free_made; reflexivity|]. change ($"u@[::1]:80") with ($"u@" ++ $"[" ++ $"::1" ++ $"]" ++ $":80"). apply bx_closed; [intros I; apply in_text_In in I; discriminate I | intros I; apply in_text_In in I; discriminate I | apply bracketed_literal; vm_compute; reflexivity].
Qed.

(** ** What does not hold *)

(** A bracket that is never closed is accepted if "]" stands somewhere in
    front of it. *)
Theorem C74_brackets_refuted : exists s u h, s = $"http://" ++ u ++ $"[" ++ h /\ ~ In "]"%char h /\ @type_proc py311 MParse TExternalRef (VStr s) = Ok (pass (VStr s)).
Proof. exists ($"http://]@[::1"), ($"]@"), ($"::1"). split; [reflexivity|]. split; [intros I; apply in_text_In in I; discriminate I | vm_compute; reflexivity]. Qed.

Print Assumptions C74_exact.
Print Assumptions C74_brackets_refuted.
