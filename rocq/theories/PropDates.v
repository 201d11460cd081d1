(** Property C73: dates are read as the moment they name and written so that
    they are read again. *)
From Coq Require Import ZArith Lia.
From Verif Require Import PyBase BaseFacts PyNum Issues IssuesSpec IssuesFacts AttrRep AttrRepSpec Value ValueFacts Container ContainerSpec ContainerFacts
  Types TypesSpec Attr AttrSpec AttrFacts AttrItems Schema SchemaSpec SchemaFacts SchemaBuild Assets PropAttr PropSchema PatchFacts RequestFacts PropRequest
  RoundSpec RoundFacts RoundAgain RoundSchema PropRound FileSpec FileFacts PropFile Dates DatesSpec DatesFacts.
Local Open Scope Z_scope.

(** ** The texts of the specification and those of the model *)

Lemma two_pad z : 0 <= z <= 99 -> two z = pad 2 z.
Proof.
  intros H. rewrite pad2. assert (0 <= z / 10 <= 9) by (pose proof (Z.div_mod z 10 ltac:(lia)); pose proof (Z.mod_pos_bound z 10 ltac:(lia)); lia).
  unfold two. rewrite (Z.mod_small (z / 10)) by lia. rewrite !dig_figure by (assumption || apply mod10). reflexivity.
Qed.
Lemma four_pad z r : 0 <= z <= 9999 -> two (z / 100) ++ two (z mod 100) ++ r = pad 4 z ++ r.
Proof.
  intros H. pose proof (Z.div_mod z 100 ltac:(lia)). pose proof (Z.mod_pos_bound z 100 ltac:(lia)).
  rewrite !two_pad by lia. rewrite !pad2, pad4. cbn [app]. rewrite !Z.div_div by lia. cbn [Z.mul Pos.mul].
  assert (A : z mod 100 / 10 mod 10 = z / 10 mod 10).
  { rewrite (Z.div_mod z 100) at 2 by lia. replace (100 * (z / 100) + z mod 100) with (z / 100 * 10 * 10 + z mod 100) by lia. rewrite Z.div_add_l by lia. rewrite Z.add_comm, Z.mod_add by lia. reflexivity. }
  assert (B : z mod 100 mod 10 = z mod 10).
  { rewrite (Z.div_mod z 100) at 2 by lia. replace (100 * (z / 100) + z mod 100) with (z mod 100 + z / 100 * 10 * 10) by lia. rewrite Z.mod_add by lia. reflexivity. }
  rewrite A, B. reflexivity.
Qed.
Lemma figures_figs f : Forall (fun x => 0 <= x <= 9) f -> figs (map figure f).
Proof. intros H. induction H as [|x f Hx H IH]; constructor; [exists x; split; [exact Hx | exact (dig_figure x Hx)] | exact IH]. Qed.
Definition value_of (f : list Z) : Z := fold_left (fun a x => 10 * a + x) f 0.
Lemma figures_worth f : forall a, Forall (fun x => 0 <= x <= 9) f -> worth a (map figure f) = fold_left (fun a x => 10 * a + x) f a.
Proof.
  induction f as [|x f IH]; intros a H; [reflexivity|]. inversion H as [|x' f' Hx H']; subst. cbn [map worth fold_left]. unfold worth in IH. rewrite (dig_figure x Hx), (dig_code x Hx).
  replace (a * 10 + (48 + x - 48)) with (10 * a + x) by lia. exact (IH _ H').
Qed.
Lemma fold_bound f : forall a, Forall (fun x => 0 <= x <= 9) f -> a * 10 ^ Z.of_nat (length f) <= fold_left (fun a x => 10 * a + x) f a < (a + 1) * 10 ^ Z.of_nat (length f).
Proof.
  induction f as [|x f IH]; intros a H; cbn [fold_left length]; [change (10 ^ Z.of_nat 0) with 1; lia|]. inversion H as [|x' f' Hx H']; subst.
  pose proof (IH (10 * a + x) H') as B. rewrite pow_S. pose proof (pow_pos (length f)). nia.
Qed.
Lemma micros_whole f : Forall (fun x => 0 <= x <= 9) f -> whole_micros f (micros (map figure f)).
Proof.
  intros H. unfold whole_micros, micros. cbv zeta. rewrite map_length, firstn_map.
  assert (H' := H). rewrite <- (firstn_skipn 6 f) in H'. apply Forall_app in H' as [H1 H2]. rewrite (figures_worth _ 0 H1).
  set (g := firstn 6 f) in *. set (r := skipn 6 f) in *. set (V := fold_left (fun a x => 10 * a + x) g 0).
  assert (Sp : fold_left (fun a x => 10 * a + x) f 0 = fold_left (fun a x => 10 * a + x) r V) by (unfold V; rewrite <- fold_left_app; unfold g, r; rewrite firstn_skipn; reflexivity). rewrite Sp. clear Sp.
  pose proof (fold_bound r V H2) as B.
  assert (L : length f = (length g + length r)%nat) by (unfold g, r; rewrite <- app_length, firstn_skipn; reflexivity).
  destruct (Nat.le_gt_cases (length f) 6) as [C|C].
  - assert (R : length r = 0%nat) by (unfold r; rewrite skipn_length; lia). rewrite R in B. change (10 ^ Z.of_nat 0) with 1 in B.
    rewrite Nat.min_l by lia. assert (P : 10 ^ Z.of_nat (6 - length f) * 10 ^ Z.of_nat (length f) = 1000000) by (rewrite <- Z.pow_add_r, <- Nat2Z.inj_add by lia; replace (6 - length f + length f)%nat with 6%nat by lia; reflexivity).
    set (A := 10 ^ Z.of_nat (6 - length f)) in *. set (K := 10 ^ Z.of_nat (length f)) in *. assert (PK : 0 < K) by apply pow_pos. set (F := fold_left _ r V) in *. assert (F = V) by lia.
    replace (V * A * K) with (V * (A * K)) by ring. replace ((V * A + 1) * K) with (V * (A * K) + K) by ring. rewrite P. lia.
  - assert (G : length g = 6%nat) by (unfold g; rewrite firstn_length; lia). rewrite Nat.min_r by lia. change (10 ^ Z.of_nat (6 - 6)) with 1. rewrite Z.mul_1_r.
    rewrite L, G. rewrite Nat2Z.inj_add, Z.pow_add_r by lia. change (10 ^ Z.of_nat 6) with 1000000. pose proof (pow_pos (length r)). nia.
Qed.
Lemma whole_micros_one f u v : whole_micros f u -> whole_micros f v -> u = v.
Proof. unfold whole_micros. cbv zeta. pose proof (pow_pos (length f)) as P. intros A B. nia. Qed.

Lemma written_text t : fits_calendar t ->
  written t = ymd (st_year t) (st_month t) (st_day t) ++ "T"%char :: hms (st_hour t) (st_minute t) (st_second t) (map figure (st_fraction t)) ++ written_zone (st_zone t).
Proof.
  intros [Hy [[k [Hk Hd]] [Hh [Hm [Hs _]]]]]. apply month_days_length in Hk as [Hmo ->].
  assert (month_length (st_year t) (st_month t) <= 31) by (apply (date_ok_range _ _ (st_day t)); unfold date_ok; rewrite !andb_true_iff, !Z.leb_le; lia).
  unfold written. rewrite four_pad by lia. rewrite !two_pad by lia. unfold ymd, hms.
  change ($"-") with ["-"%char]. change ($"T") with ["T"%char]. change ($":") with [":"%char]. do 5 (cbn [app]; rewrite <- ?app_assoc). destruct (st_fraction t); reflexivity.
Qed.
Lemma fits_date t : fits_calendar t -> date_ok (st_year t) (st_month t) (st_day t) = true.
Proof. intros [Hy [[k [Hk Hd]] _]]. apply month_days_length in Hk as [Hmo ->]. unfold date_ok. rewrite !andb_true_iff, !Z.leb_le. lia. Qed.
Lemma written_zone_read z : zone_fits z -> (written_zone z = [] \/ is_zone (peek (written_zone z)) = true) /\ Forall plain_char (written_zone z) /\ read_zone (written_zone z) = Some (zone_offset z).
Proof.
  assert (P : forall h m, 0 <= h <= 23 -> 0 <= m <= 59 -> two h ++ $":" ++ two m = hm h m /\ read_clock (hm h m) (length (hm h m)) = Some (h, m, 0, 0, false) /\ Forall plain_char (hm h m)).
  { intros h m Hh Hm. rewrite !two_pad by lia. split; [reflexivity|]. pose proof (read_hm h m [] ltac:(lia) ltac:(lia)) as Q. rewrite app_nil_r in Q. split; [exact Q|].
    unfold hm. apply Forall_app. split; [apply figs_plain, pad_dig|]. constructor; [reflexivity | apply figs_plain, pad_dig]. }
  destruct z as [| |h m|h m]; intros H; cbn [zone_fits written_zone zone_offset] in *.
  - split; [left; reflexivity|]. split; [constructor | reflexivity].
  - split; [right; reflexivity|]. split; [repeat constructor | reflexivity].
  - destruct H as [Hh Hm]. destruct (P h m Hh Hm) as [-> [R F]]. split; [right; reflexivity|]. split; [constructor; [reflexivity | exact F]|].
    change ($"+" ++ hm h m) with ("+"%char :: hm h m). unfold read_zone. change (Ascii.eqb "+" "Z") with false. rewrite R. cbv zeta. unfold day_us, second_us.
    destruct (Z.eqb_spec (h * 3600 + m * 60 + 0) 0) as [E|E]; [assert (A : h = 0 /\ m = 0) by lia; destruct A as [-> ->]; reflexivity|]. match goal with |- context [?a <? ?b] => assert (Lt : a < b) by lia; apply Z.ltb_lt in Lt; rewrite Lt; clear Lt end. change (Ascii.eqb "+" "-") with false. cbn iota. apply f_equal, f_equal. lia.
  - destruct H as [Hh Hm]. destruct (P h m Hh Hm) as [-> [R F]]. split; [right; reflexivity|]. split; [constructor; [reflexivity | exact F]|].
    change ($"-" ++ hm h m) with ("-"%char :: hm h m). unfold read_zone. change (Ascii.eqb "-" "Z") with false. rewrite R. cbv zeta. unfold day_us, second_us.
    destruct (Z.eqb_spec (h * 3600 + m * 60 + 0) 0) as [E|E]; [assert (A : h = 0 /\ m = 0) by lia; destruct A as [-> ->]; reflexivity|]. match goal with |- context [?a <? ?b] => assert (Lt : a < b) by lia; apply Z.ltb_lt in Lt; rewrite Lt; clear Lt end. change (Ascii.eqb "-" "-") with true. cbn iota. apply f_equal, f_equal. lia.
Qed.
Definition date_named (t : stamp) : datetime :=
  mkDT ((day_number (st_year t) (st_month t) (st_day t) - 1) * day_us + (((st_hour t * 60 + st_minute t) * 60 + st_second t) * second_us + micros (map figure (st_fraction t)))) (zone_offset (st_zone t)).
Lemma from_iso_written t : fits_calendar t -> from_iso (written t) = Some (date_named t).
Proof.
  intros H. rewrite (written_text t H). pose proof (fits_date t H) as D. destruct H as [Hy [_ [Hh [Hm [Hs [Hf Hz]]]]]]. destruct (written_zone_read _ Hz) as [Z1 [Z2 Z3]].
  exact (from_iso_text _ _ _ _ _ _ _ _ _ D Hh Hm Hs (figures_figs _ Hf) Z1 Z2 Z3).
Qed.
Lemma month_before_all y m n : days_to_month y m n -> n = month_before y m /\ 1 <= m <= 13.
Proof.
  intros H. induction H as [|m n k H [IH M] K]; [split; [reflexivity | lia]|]. apply month_days_length in K as [K ->]. rewrite (month_before_next y m K), IH. split; [reflexivity | lia].
Qed.
Lemma named_is t d : fits_calendar t -> names t d -> d = date_named t.
Proof.
  intros [_ [_ [_ [_ [_ [Hf _]]]]]] [[ny [nm [u [A [B [C E]]]]]] O]. apply days_to_year_before in A. apply month_before_all in B as [B _]. pose proof (whole_micros_one _ _ _ C (micros_whole _ Hf)) as U. subst ny nm u.
  destruct d as [l o]. cbn [dt_local dt_off] in *. subst o l. unfold date_named, day_number, day_us, second_us. f_equal. lia.
Qed.
Lemma is_named t : fits_calendar t -> names t (date_named t).
Proof.
  intros [Hy [[k [Hk Hd]] [_ [_ [_ [Hf _]]]]]]. apply month_days_length in Hk as [Hmo _]. split; [|reflexivity].
  exists (days_before (st_year t)), (month_before (st_year t) (st_month t)), (micros (map figure (st_fraction t))).
  split; [apply days_to_year_made; lia|]. split; [apply days_to_month_made; exact Hmo|]. split; [exact (micros_whole _ Hf)|]. unfold date_named, day_number, day_us, second_us. cbn [dt_local]. lia.
Qed.

(** ** The theorems *)

(** Every date with a time in the calendar's range names one moment, and its
    xsd:dateTime text is read as that moment. *)
Theorem C73_read : forall url t, fits_calendar t ->
  (exists d, names t d) /\ (forall d, names t d -> @type_proc (iso_env url) MParse TDateTime (VStr (written t)) = Ok (pass (VDate d))).
Proof.
  intros url t H. split; [exists (date_named t); exact (is_named t H)|]. intros d N. rewrite (named_is t d H N). cbn [type_proc]. unfold datetime_parse. cbn [env_fromiso iso_env]. rewrite (from_iso_written t H). reflexivity.
Qed.

(** Such a date is dumped as an xsd:dateTime text that names the same moment. *)
Fixpoint fig_list (k : nat) (z : Z) : list Z := match k with O => [] | S k => fig_list k (z / 10) ++ [z mod 10] end.
Lemma fig_list_fit k z : Forall (fun x => 0 <= x <= 9) (fig_list k z).
Proof. revert z. induction k as [|k IH]; intros z; cbn [fig_list]; [constructor|]. apply Forall_app. split; [apply IH|]. constructor; [apply mod10 | constructor]. Qed.
Lemma fig_list_shown k z : map figure (fig_list k z) = pad k z.
Proof. revert z. induction k as [|k IH]; intros z; cbn [fig_list pad]; [reflexivity|]. rewrite map_app, IH. cbn [map]. rewrite (dig_figure _ (mod10 z)). reflexivity. Qed.
Definition zone_of (off : option Z) : zone :=
  match off with
  | None => Floating
  | Some o => let m := Z.abs o / 60000000 in if o <? 0 then West (m / 60) (m mod 60) else East (m / 60) (m mod 60)
  end.
Definition stamp_of (d : datetime) : stamp :=
  match date_of (dt_local d / day_us) with
  | (y, mo, da) =>
      let t := dt_local d mod day_us in let s := t / second_us in
      mkStamp y mo da (s / 3600) (s / 60 mod 60) (s mod 60) (if t mod second_us =? 0 then [] else fig_list 6 (t mod second_us)) (zone_of (dt_off d))
  end.
(** Offsets of whole minutes. *)
Definition whole_minutes (off : option Z) : Prop := match off with None => True | Some o => Z.abs o < day_us /\ exists m, Z.abs o = m * 60000000 end.
Lemma zone_of_shown off : whole_minutes off -> zone_fits (zone_of off) /\ written_zone (zone_of off) = show_zone off.
Proof.
  destruct off as [o|]; intros H; [|split; [exact I | reflexivity]]. destruct H as [A [m E]]. cbn [zone_of]. rewrite E. rewrite Z.div_mul by lia. unfold day_us, second_us in A.
  assert (M : 0 <= m < 1440) by lia. pose proof (Z.div_mod m 60 ltac:(lia)) as D. pose proof (Z.mod_pos_bound m 60 ltac:(lia)) as D'.
  assert (H60 : 0 <= m / 60 <= 23) by lia.
  assert (T : two (m / 60) ++ $":" ++ two (m mod 60) = pad 2 (m / 60) ++ ":"%char :: pad 2 (m mod 60)) by (rewrite !two_pad by lia; reflexivity).
  assert (Sh : show_zone (Some o) = (if o <? 0 then "-"%char else "+"%char) :: pad 2 (m / 60) ++ ":"%char :: pad 2 (m mod 60)).
  { unfold show_zone, second_us. rewrite E. replace (m * 60000000) with (m * 60 * 1000000) by lia. rewrite Z.mod_mul, Z.div_mul by lia. rewrite Z.mod_mul by lia. change (0 =? 0) with true. cbn [andb]. rewrite app_nil_r.
    replace 3600 with (60 * 60) by reflexivity. rewrite Z.div_mul_cancel_r by lia. rewrite Z.div_mul by lia. reflexivity. }
  rewrite Sh. destruct (o <? 0); cbn [zone_fits written_zone]; (split; [lia|]); rewrite T; reflexivity.
Qed.
Lemma stamp_of_shown d : 0 <= dt_local d / day_us < last_day -> whole_minutes (dt_off d) -> fits_calendar (stamp_of d) /\ written (stamp_of d) = to_iso d.
Proof.
  intros D O. pose proof (zone_of_shown _ O) as [Zf Zs]. pose proof (date_of_spec _ D) as Sp. assert (P : 0 < day_us) by reflexivity. pose proof (Z.mod_pos_bound (dt_local d) day_us P) as T.
  pose proof (clock_parts _ T) as C. cbv zeta in C. destruct C as [C1 [C2 [C3 [C4 _]]]].
  assert (F : fits_calendar (stamp_of d)).
  { unfold stamp_of, fits_calendar. destruct (date_of (dt_local d / day_us)) as [[y mo] da]. destruct Sp as [Ok _]. pose proof (date_ok_range _ _ _ Ok) as [Y [M [K _]]]. cbv zeta. cbn [st_year st_month st_day st_hour st_minute st_second st_fraction st_zone].
    split; [exact Y|]. split; [exists (month_length y mo); split; [exact (month_days_made y mo M) | exact K]|]. split; [exact C1|]. split; [exact C2|]. split; [exact C3|]. split; [|exact Zf]. destruct (_ =? 0); [constructor | apply fig_list_fit]. }
  split; [exact F|]. rewrite (written_text _ F), to_iso_text. unfold stamp_of. destruct (date_of (dt_local d / day_us)) as [[y mo] da]. cbv zeta. cbn [st_year st_month st_day st_hour st_minute st_second st_fraction st_zone].
  rewrite Zs. unfold fraction_of. destruct (_ =? 0); [reflexivity|]. rewrite fig_list_shown. reflexivity.
Qed.
Theorem C73_dump : forall url t d, fits_calendar t -> names t d ->
  exists t', fits_calendar t' /\ names t' d /\ @type_proc (iso_env url) MDump TDateTime (VDate d) = Ok (pass (VStr (written t'))).
Proof.
  intros url t d F N. rewrite (named_is t d F N) in *. set (x := date_named t) in *. pose proof (from_iso_written t F) as R. fold x in R.
  pose proof (from_iso_ok _ _ R) as [D _].
  assert (O : whole_minutes (dt_off x)).
  { unfold x, date_named. cbn [dt_off]. destruct F as [_ [_ [_ [_ [_ [_ Z]]]]]]. unfold whole_minutes, day_us, second_us. destruct (st_zone t) as [| |h m|h m]; cbn [zone_offset zone_fits] in *; [exact I | split; [lia | exists 0; reflexivity] | |]; (split; [lia | exists (h * 60 + m); lia]). }
  destruct (stamp_of_shown x D O) as [F' W]. exists (stamp_of x). split; [exact F'|]. split.
  - pose proof (iso_back _ _ R) as B. rewrite <- W, (from_iso_written _ F') in B. apply (f_equal (fun o => match o with Some v => v | None => x end)) in B. cbv beta iota in B. rewrite <- B at 2. exact (is_named _ F').
  - cbn [type_proc]. unfold datetime_dump. cbn [env_isofmt iso_env]. rewrite W. reflexivity.
Qed.

(** Whatever text was read as a date, the date is read again from its own text;
    so the conditions of C71 and C72 about dates hold with these dates. *)
Theorem C73_back : forall url, faithful_dates (iso_env url).
Proof. intros url s d H. exact (iso_back s d H). Qed.
Theorem C73_wire : forall url s doc y iss, made s -> Forall steady (at_top (sc_attrs s)) -> Forall typed (at_top (sc_attrs s)) -> unshared s -> is_object doc ->
  @schema_parse (iso_env url) s doc = Ok (y, iss) -> silent iss ->
  exists u iss1 iss2, @base_parse (iso_env url) MDump s y = Ok (u, iss1) /\ silent iss1 /\ json (to_dict u) /\ @schema_parse (iso_env url) s (to_dict u) = Ok (y, iss2) /\ silent iss2.
Proof. intros url. exact (@C72_wire_partial (iso_env url) (C73_back url)). Qed.

(** With the functions of Python computed, C19 needs no condition: a text is
    read as a date or reported, and a date that was read is dumped as a text
    that is read as the same date. *)
Theorem C19_python : forall url s,
  (@type_proc (iso_env url) MParse TDateTime (VStr s) = Ok (fail e_bad_syntax) /\ from_iso s = None)
  \/ exists d t, @type_proc (iso_env url) MParse TDateTime (VStr s) = Ok (pass (VDate d))
       /\ @type_proc (iso_env url) MDump TDateTime (VDate d) = Ok (pass (VStr t))
       /\ @type_proc (iso_env url) MParse TDateTime (VStr t) = Ok (pass (VDate d)).
Proof.
  intros url s. cbn [type_proc]. unfold datetime_parse, datetime_dump. cbn [env_fromiso env_isofmt iso_env].
  destruct (from_iso s) as [d|] eqn:E; [right|left; split; reflexivity]. exists d. eexists. split; [reflexivity|]. split; [reflexivity|].
  rewrite (iso_back s d E). reflexivity.
Qed.
Example ex_C19_python : exists d, @type_proc (iso_env (fun _ => true)) MParse TDateTime (VStr ($"2020-02-29T10:00:00+01:00")) = Ok (pass (VDate d)).
Proof. eexists. vm_compute. reflexivity. Qed.

(** ** Concrete cases *)

Definition ex_url : str -> bool := fun _ => true.
Definition ex_stamp : stamp := mkStamp 2024 2 29 23 59 58 [1; 2; 3; 4; 5; 6; 7] (West 3 30).
Example ex_C73 : fits_calendar ex_stamp /\ written ex_stamp = $"2024-02-29T23:59:58.1234567-03:30"
  /\ names ex_stamp (mkDT 63844847998123456 (Some (-12600000000)))
  /\ to_iso (mkDT 63844847998123456 (Some (-12600000000))) = $"2024-02-29T23:59:58.123456-03:30".
Proof.
  assert (F : fits_calendar ex_stamp).
  { unfold fits_calendar, ex_stamp. cbn [st_year st_month st_day st_hour st_minute st_second st_fraction st_zone zone_fits]. split; [lia|]. split; [|split; [lia|]; split; [lia|]; split; [lia|]; split; [repeat constructor; lia | lia]].
    exists 29. split; [|lia]. apply md_feb_leap. apply leap_spec. reflexivity. }
  split; [exact F|]. split; [reflexivity|]. split; [|reflexivity].
  replace (mkDT 63844847998123456 (Some (-12600000000))) with (date_named ex_stamp) by reflexivity. exact (is_named _ F).
Qed.
Definition ex_created : value := dict_of
  [($"schemas", VList [VStr group_uri]); ($"meta", dict_of [($"resourceType", VStr ($"Group")); ($"created", VStr (written ex_stamp))]); ($"displayName", VStr ($"guides"))].
Example ex_C73_wire : made group_schema /\ Forall steady (at_top (sc_attrs group_schema)) /\ Forall typed (at_top (sc_attrs group_schema)) /\ unshared group_schema /\ is_object ex_created
  /\ outcome_is (@schema_parse (iso_env ex_url) group_schema ex_created) (fun y iss => iss = no_issues /\ get_item_str y ($"meta.created") = Ok (VDate (mkDT 63844847998123456 (Some (-12600000000))))).
Proof. split; [exact group_made|]. split; [exact group_steady|]. split; [exact group_typed|]. split; [exact group_unshared|]. split; [exact I|]. vm_compute. split; reflexivity. Qed.

(** ** What does not hold *)

(** Texts of other forms are read, too: week dates, times without seconds, and
    even a stray character before the offset. *)
Lemma written_long t : (19 <= length (written t))%nat.
Proof. unfold written. rewrite !app_length. assert (L : forall z, length (two z) = 2%nat) by reflexivity. rewrite !L. change (length ($"-")) with 1%nat. change (length ($"T")) with 1%nat. change (length ($":")) with 1%nat. lia. Qed.
Theorem C73_only_refuted : forall url, exists s d, @type_proc (iso_env url) MParse TDateTime (VStr s) = Ok (pass (VDate d)) /\ forall t, written t <> s.
Proof.
  intros url. exists ($"2020-W01"), (mkDT 63713260800000000 None). split; [vm_compute; reflexivity|]. intros t E. pose proof (written_long t) as L. rewrite E in L. cbn in L. lia.
Qed.
Theorem C73_stray_refuted : forall url, exists s d, @type_proc (iso_env url) MParse TDateTime (VStr s) = Ok (pass (VDate d)) /\ s = $"2020-01-31T12?+01:00".
Proof. intros url. exists ($"2020-01-31T12?+01:00"), (mkDT 63716068800000000 (Some 3600000000)). split; [vm_compute; reflexivity | reflexivity]. Qed.

(** The end of a day written as hour 24 is an xsd:dateTime, and not read. *)
Theorem C73_midnight_refuted : forall url, exists t, fits_calendar (mkStamp (st_year t) (st_month t) (st_day t) 0 0 0 [] (st_zone t)) /\ st_hour t = 24 /\ st_minute t = 0 /\ st_second t = 0 /\ st_fraction t = []
  /\ @type_proc (iso_env url) MParse TDateTime (VStr (written t)) = Ok (fail e_bad_syntax).
Proof.
  intros url. exists (mkStamp 2020 12 31 24 0 0 [] Zulu). cbn [st_year st_month st_day st_hour st_minute st_second st_fraction st_zone].
  split; [|repeat split; vm_compute; reflexivity]. unfold fits_calendar. cbn [st_year st_month st_day st_hour st_minute st_second st_fraction st_zone zone_fits].
  split; [lia|]. split; [exists 31; split; [apply md_31; cbn; tauto | lia]|]. split; [lia|]. split; [lia|]. split; [lia|]. split; [constructor | exact I].
Qed.

(** A date with an offset of seconds is read, and dumped as a text that is no
    xsd:dateTime. *)
Theorem C73_seconds_refuted : forall url, exists s d o, @type_proc (iso_env url) MParse TDateTime (VStr s) = Ok (pass (VDate d))
  /\ @type_proc (iso_env url) MDump TDateTime (VDate d) = Ok (pass (VStr o)) /\ forall t, fits_calendar t -> written t <> o.
Proof.
  intros url. exists ($"2020-01-31T12:00:00+01:00:01"), (mkDT 63716068800000000 (Some 3601000000)), ($"2020-01-31T12:00:00+01:00:01"). split; [vm_compute; reflexivity|]. split; [vm_compute; reflexivity|].
  intros t F E. apply (f_equal from_iso) in E. rewrite (from_iso_written t F) in E. replace (from_iso ($"2020-01-31T12:00:00+01:00:01")) with (Some (mkDT 63716068800000000 (Some 3601000000))) in E by (vm_compute; reflexivity).
  apply (f_equal (fun o => match o with Some d => dt_off d | None => None end)) in E. unfold date_named in E. cbn [dt_off] in E. destruct (st_zone t) as [| |h m|h m]; cbn [zone_offset] in E; try discriminate E; apply (f_equal (fun o => match o with Some x => x | None => 0 end)) in E; lia.
Qed.

Print Assumptions C19_python.
Print Assumptions C73_read.
Print Assumptions C73_dump.
Print Assumptions C73_back.
Print Assumptions C73_wire.
Print Assumptions C73_only_refuted.
Print Assumptions C73_stray_refuted.
Print Assumptions C73_midnight_refuted.
Print Assumptions C73_seconds_refuted.
