(** Property C74: which texts are taken as absolute URLs. *)
From Coq Require Import Lia.
From Verif Require Import PyBase BaseFacts PyNum Issues IssuesSpec IssuesFacts AttrRep Value Types TypesSpec Attr Schema Assets PropAttr PropRequest Dates Urls UrlSpec UrlFacts.

(** ** The theorems *)

(** A text that is an absolute URL once the blanks in front and the line
    breaks are gone is accepted, and kept as it was given. *)
Theorem C74_accepts : forall m s u, tidied s u -> absolute (fun a => bare a \/ boxed a) u ->
  @type_proc py311 m TExternalRef (VStr s) = Ok (pass (VStr s)).
Proof.
  intros m s u T A. apply tidied_is in T. assert (E : abs_url s = true).
  { destruct A as [sc a t Hs Ha Ht]. destruct Ha as [[N F]|Ha].
    - rewrite (abs_url_made s sc a t (eq_sym T) Hs) by (first [exact Ht | eapply Forall_impl; [|exact F]; intros x P I; apply P; cbn in *; tauto]).
      rewrite bare_ok by (intros I; rewrite Forall_forall in F; apply (F _ I); cbn; tauto). destruct a; [destruct (N eq_refl) | reflexivity].
    - destruct (boxed_ok a Ha) as [O F]. rewrite (abs_url_made s sc a t (eq_sym T) Hs F Ht). exact O. }
  destruct m; cbn [type_proc]; unfold external_proc; cbn [env_abs_url py311]; rewrite E; reflexivity.
Qed.

(** Without brackets nothing else is accepted; every other text is reported. *)
Theorem C74_only : forall m s, ~ In "["%char s -> ~ In "]"%char s ->
  (@type_proc py311 m TExternalRef (VStr s) = Ok (pass (VStr s)) <-> exists u, tidied s u /\ absolute bare u)
  /\ (@type_proc py311 m TExternalRef (VStr s) = Ok (fail (e_bad_url s)) <-> ~ exists u, tidied s u /\ absolute bare u).
Proof.
  intros m s L R. assert (K : forall c, In c (cleaned s) -> In c s).
  { intros c I. unfold cleaned in I. apply filter_In in I as [I _]. destruct (drop_split s) as [p [E _]]. rewrite E. apply in_or_app. right. exact I. }
  assert (T : @type_proc py311 m TExternalRef (VStr s) = Ok (if abs_url s then pass (VStr s) else fail (e_bad_url s))) by (destruct m; reflexivity).
  assert (Q : abs_url s = true <-> exists u, tidied s u /\ absolute bare u).
  { split.
    - intros H. destruct (abs_url_found s H) as [sc [a [t [E [Hs [Ha [Ht Hn]]]]]]]. exists (cleaned s). split; [apply tidied_is; reflexivity|]. rewrite E. constructor; [exact Hs | | exact Ht].
      assert (I : forall c, In c a -> In c s) by (intros c J; apply K; rewrite E; apply in_or_app; right; apply in_or_app; right; apply in_or_app; left; exact J).
      split; [intros ->; discriminate Hn|]. apply Forall_forall. intros x J. rewrite Forall_forall in Ha. specialize (Ha x J). apply I in J. intros F. cbn in F, Ha. destruct F as [F|[F|[F|[F|[F|[]]]]]]; subst x; tauto.
    - intros [u [Tu A]]. pose proof (C74_accepts m s u Tu) as C. rewrite T in C. destruct (abs_url s); [reflexivity|]. exfalso.
      assert (B : absolute (fun a => bare a \/ boxed a) u) by (destruct A; constructor; auto). specialize (C B). discriminate C. }
  rewrite T. rewrite <- Q. destruct (abs_url s); split; split; intros H; try reflexivity; try discriminate H; try (intros F; discriminate F); exfalso; apply H; reflexivity.
Qed.

(** With brackets, too, there are a scheme and an authority. *)
Theorem C74_shape : forall m s, @type_proc py311 m TExternalRef (VStr s) = Ok (pass (VStr s)) ->
  exists u, tidied s u /\ absolute (fun a => a <> [] /\ Forall (fun x => ~ In x ($"/?#")) a /\ (In "["%char a <-> In "]"%char a)) u.
Proof.
  intros m s H. assert (T : @type_proc py311 m TExternalRef (VStr s) = Ok (if abs_url s then pass (VStr s) else fail (e_bad_url s))) by (destruct m; reflexivity).
  rewrite T in H. destruct (abs_url s) eqn:E; [|discriminate H]. destruct (abs_url_found s E) as [sc [a [t [Ec [Hs [Ha [Ht Hn]]]]]]]. exists (cleaned s). split; [apply tidied_is; reflexivity|]. rewrite Ec. constructor; [exact Hs | | exact Ht].
  split; [intros ->; discriminate Hn|]. split; [exact Ha|]. unfold netloc_ok in Hn. apply andb_prop in Hn as [_ Hn]. destruct (has "[" a) eqn:B.
  - apply has_In in B. apply andb_prop in Hn as [Hn _]. apply has_In in Hn. tauto.
  - apply has_not in B. apply negb_true_iff, has_not in Hn. tauto.
Qed.

(** ** Concrete cases *)

Lemma group_made g : Nat.leb 1 (length g) && Nat.leb (length g) 4 && forallb (in_text hex_figures) g = true -> group g.
Proof. intros H. apply andb_prop in H as [H F]. apply andb_prop in H as [H1 H2]. split; [split; apply Nat.leb_le; assumption|]. apply Forall_forall. intros x I. rewrite forallb_forall in F. apply in_text_In, F, I. Qed.
Lemma free_made s l : forallb (fun x => negb (in_text l x)) s = true -> Forall (fun x => ~ In x l) s.
Proof. intros H. apply Forall_forall. intros x I F. rewrite forallb_forall in H. apply H in I. apply in_text_In in F. rewrite F in I. discriminate I. Qed.
Example ex_C74 : tidied ($" https://idp.example.com/Users/1?x=y") ($"https://idp.example.com/Users/1?x=y") /\ absolute bare ($"https://idp.example.com/Users/1?x=y")
  /\ absolute boxed ($"http://u@[2001:db8::1f]:8080/") /\ ~ (exists u, tidied ($"urn:ietf:params") u /\ absolute bare u).
Proof.
  split; [apply tidied_is; reflexivity|]. split.
  - change ($"https://idp.example.com/Users/1?x=y") with ($"https" ++ $"://" ++ $"idp.example.com" ++ $"/Users/1?x=y"). constructor.
    + exists "h"%char, ($"ttps"). split; [reflexivity|]. split; [apply in_text_In; reflexivity|]. apply Forall_forall. intros x I. apply in_text_In. cbn in I. repeat (destruct I as [<-|I]; [reflexivity|]). destruct I.
    + split; [discriminate|]. apply Forall_forall. intros x I F. apply in_text_In in F. cbn in I. repeat (destruct I as [<-|I]; [discriminate F|]). destruct I.
    + right. exists "/"%char, ($"Users/1?x=y"). split; [reflexivity | left; reflexivity].
  - split.
    + change ($"http://u@[2001:db8::1f]:8080/") with ($"http" ++ $"://" ++ $"u@[2001:db8::1f]:8080" ++ $"/"). constructor.
      * exists "h"%char, ($"ttp"). split; [reflexivity|]. split; [apply in_text_In; reflexivity|]. apply Forall_forall. intros x I. apply in_text_In. cbn in I. repeat (destruct I as [<-|I]; [reflexivity|]). destruct I.
      * exists ($"u@"), ($"2001:db8::1f"), ($":8080"). split; [|split; [|split; [|reflexivity]]].
        -- change ($"2001:db8::1f") with (colons [$"2001"; $"db8"] ++ $"::" ++ colons [$"1f"]). apply six_short; [| |cbn; lia].
           ++ constructor; [apply group_made; reflexivity|]. constructor; [apply group_made; reflexivity | constructor].
           ++ constructor; [apply group_made; reflexivity | constructor].
        -- apply free_made. reflexivity.
        -- apply free_made. reflexivity.
      * right. exists "/"%char, []. split; [reflexivity | left; reflexivity].
    + apply (C74_only MParse ($"urn:ietf:params")); try (intros F; apply in_text_In in F; discriminate F). vm_compute. reflexivity.
Qed.

(** ** What does not hold *)

(** Texts with line breaks and spaces, which no URL contains, are accepted and
    kept with them. *)
Theorem C74_breaks_refuted : exists s, break (nth 9 s "a"%char) /\ In " "%char s /\ @type_proc py311 MParse TExternalRef (VStr s) = Ok (pass (VStr s)).
Proof. exists ($"http://ab" ++ ["010"%char] ++ $"c d"). split; [right; left; reflexivity|]. split; [apply in_text_In; reflexivity | vm_compute; reflexivity]. Qed.

Print Assumptions C74_accepts.
Print Assumptions C74_only.
Print Assumptions C74_shape.
Print Assumptions C74_breaks_refuted.
