(** Properties C14-C18 (Earth orientation series). *)
From Coq Require Import Ascii String Reals ZArith List Bool Lia Lra.
From Verif Require Import Base CString Poly FromChars EopModel EopSpec EopProofs EopProofs2 EopParseModel EopParseSpec EopParseProofs.
Import ListNotations.
Open Scope R_scope.

(** epochs: any type with a position in days, compared accordingly *)
Definition epochs {T} (ltb : T -> T -> bool) (days : T -> R) : Prop := forall a b, ltb a b = true <-> days a < days b.

(** ** C14 status *)
Theorem c14_bounds : forall T ltb days leap, @epochs T ltb days -> forall s t e d st r s' r0 l l' rl,
  interpolate T ltb days leap s t e d = Ok (st, r, s') -> sorted days (mvec T s) -> ready s -> (1 <= d <= 9)%Z ->
  mvec T s = r0 :: l -> mvec T s = l' ++ [rl] ->
  (st = Prior <-> days t < days (rt T r0)) /\ (st = Later <-> days (rt T rl) <= days t).
Proof. exact @status_bounds. Qed.
Print Assumptions c14_bounds.

(** the call succeeds and every status is reported exactly when it applies; [usable] is half the number of nodes *)
Theorem c14_status : forall T ltb days leap, @epochs T ltb days -> forall s t e d b a,
  sorted days (mvec T s) -> ready s -> (1 <= d <= 9)%Z -> mvec T s <> [] -> cut days (mvec T s) t b a ->
  exists st r s', interpolate T ltb days leap s t e d = Ok (st, r, s') /\ status_spec b a d st.
Proof. exact @status_total. Qed.
Print Assumptions c14_status.
Theorem c14_cut_exists : forall T days l t, sorted days l -> exists b a, @cut T days l t b a.
Proof. exact @cut_exists. Qed.
Print Assumptions c14_cut_exists.

Theorem c14_before : forall T ltb days leap, @epochs T ltb days -> forall s t e d a,
  sorted days (mvec T s) -> ready s -> (d <= 9)%Z -> cut days (mvec T s) t [] a -> a <> [] ->
  exists r s', interpolate T ltb days leap s t e d = Ok (Prior, r, s') /\ nth_error (mvec T s) 0 = Some (hd r (mvec T s)) /\
    rt T r = t /\ same_values r (hd r (mvec T s)) /\ mvec T s' = mvec T s /\ ready s'.
Proof. exact @interpolate_prior. Qed.
Print Assumptions c14_before.
Theorem c14_after : forall T ltb days leap, @epochs T ltb days -> forall s t e d b,
  sorted days (mvec T s) -> ready s -> (d <= 9)%Z -> cut days (mvec T s) t b [] -> b <> [] ->
  exists r s', interpolate T ltb days leap s t e d = Ok (Later, r, s') /\ rt T r = t /\ same_values r (last (mvec T s) r) /\
    In (last (mvec T s) r) (mvec T s) /\ mvec T s' = mvec T s /\ ready s'.
Proof. exact @interpolate_later. Qed.
Print Assumptions c14_after.
(** in bounds: the status, the nodes used and the values *)
Theorem c14_inside : forall T ltb days leap, @epochs T ltb days -> forall s t e d b a,
  sorted days (mvec T s) -> ready s -> (1 <= d <= 9)%Z -> cut days (mvec T s) t b a -> b <> [] -> a <> [] ->
  exists r s', let n := usable b a d in
    interpolate T ltb days leap s t e d =
      Ok (if Nat.eqb n 1 then Linear else if (2 * Z.of_nat n =? d + 1)%Z then Requested else Decreased, r, s') /\
    interpolated days (nearest b a n) t (leap t) r /\ rt T r = t /\ rdat T r = rdat T e /\ (1 <= n)%nat /\
    length (nearest b a n) = (2 * n)%nat /\ mvec T s' = mvec T s /\ ready s'.
Proof. exact @interpolate_inside. Qed.
Print Assumptions c14_inside.

(** an even degree is never reported as the requested one, however long the series *)
Theorem c14_even_degree : forall T ltb days leap, @epochs T ltb days -> forall s t e d st r s',
  sorted days (mvec T s) -> ready s -> (1 <= d <= 9)%Z -> mvec T s <> [] -> Z.even d = true ->
  interpolate T ltb days leap s t e d = Ok (st, r, s') -> st <> Requested.
Proof. exact @even_never_requested. Qed.
Print Assumptions c14_even_degree.

(** example series: epochs 0..5, x = t^2 *)
Definition ex_rec (i : Z) : rec Z := mkR Z i (IZR (i * i)) 1 2 3 4 5 37 0 0.
Definition ex_series : series Z := mkSer Z (map ex_rec [0; 1; 2; 3; 4; 5]%Z) (Some 6%nat).
Lemma ex_epochs : epochs Z.ltb IZR.
Proof. intros a b. rewrite Z.ltb_lt. split; [apply IZR_lt|apply lt_IZR]. Qed.
Lemma ex_sorted : sorted IZR (mvec Z ex_series).
Proof. cbn. repeat (split; [repeat constructor; cbn; lra|]). exact I. Qed.
Lemma ex_ready : ready ex_series.
Proof. exists 6%nat. split; [reflexivity|]. cbn. lia. Qed.
Lemma ex_cut : cut IZR (mvec Z ex_series) 2%Z (map ex_rec [0; 1; 2]%Z) (map ex_rec [3; 4; 5]%Z).
Proof. split; [reflexivity|]. split; cbn; repeat constructor; cbn; lra. Qed.
Example c14_nonvacuous : exists st r s',
  interpolate Z Z.ltb IZR (fun _ => 37) ex_series 2%Z (ex_rec 0) 3 = Ok (st, r, s') /\ st = Requested /\ usable (map ex_rec [0; 1; 2]%Z) (map ex_rec [3; 4; 5]%Z) 3 = 2%nat.
Proof.
  destruct (c14_status Z Z.ltb IZR (fun _ => 37) ex_epochs ex_series 2%Z (ex_rec 0) 3%Z (map ex_rec [0; 1; 2]%Z) (map ex_rec [3; 4; 5]%Z) ex_sorted ex_ready) as (st & r & s' & H & P); [lia|discriminate|exact ex_cut|].
  exists st, r, s'. split; [exact H|]. split; [|reflexivity]. apply P. split; [discriminate|]. split; [discriminate|]. split; [discriminate|]. reflexivity.
Qed.
Example c14_prior_nonvacuous : cut IZR (mvec Z ex_series) (-1)%Z [] (mvec Z ex_series) /\ cut IZR (mvec Z ex_series) 5%Z (mvec Z ex_series) [].
Proof. split; (split; [reflexivity|]); split; cbn; repeat constructor; cbn; lra. Qed.

(** degree 0: no node is used, the values are all zero, yet "decreased degree" is reported *)
Theorem c14_degree_zero_refuted :
  exists r s', interpolate Z Z.ltb IZR (fun _ => 37) ex_series 2%Z (ex_rec 0) 0 = Ok (Decreased, r, s') /\ yp Z r = 0 /\ (forall q, In q (mvec Z ex_series) -> yp Z q = 1).
Proof.
  eexists _, _. split; [reflexivity|]. split; [reflexivity|]. intros q H. cbn in H. intuition subst; reflexivity.
Qed.
Print Assumptions c14_degree_zero_refuted.
(** degree -1 is reported as used, with zero values; degree -3 makes the loop run away *)
Theorem c14_negative_degree_refuted :
  (exists r s', interpolate Z Z.ltb IZR (fun _ => 37) ex_series 2%Z (ex_rec 0) (-1) = Ok (Requested, r, s') /\ yp Z r = 0) /\
  interpolate Z Z.ltb IZR (fun _ => 37) ex_series 2%Z (ex_rec 0) (-3) = UB.
Proof. split; [eexists _, _; split; reflexivity|reflexivity]. Qed.
Print Assumptions c14_negative_degree_refuted.
(** an empty series *)
Theorem c14_empty_refuted : forall T ltb days leap t e d, (d <= 9)%Z -> interpolate T ltb days leap (empty T) t e d = UB.
Proof.
  intros T ltb days leap t e d D. unfold interpolate, MAX_DEGREE. replace (9 <? d)%Z with false by (symmetry; apply Z.ltb_ge; lia). reflexivity.
Qed.
Print Assumptions c14_empty_refuted.

(** ** C15 exactness *)
(** at the epoch of a record other than the last *)
Theorem c15_node : forall T ltb days leap, @epochs T ltb days -> forall s t e d l1 r0 q l2,
  sorted days (mvec T s) -> ready s -> (1 <= d <= 9)%Z -> mvec T s = l1 ++ r0 :: q :: l2 -> days (rt T r0) = days t ->
  exists st r s', interpolate T ltb days leap s t e d = Ok (st, r, s') /\ rt T r = t /\
    xp T r = xp T r0 /\ yp T r = yp T r0 /\ dut T r = dut T r0 - rdat T r0 + leap t /\ lod T r = lod T r0 /\ dX T r = dX T r0 /\ dY T r = dY T r0.
Proof. exact @interpolate_node. Qed.
Print Assumptions c15_node.
(** polynomials of degree below the number of nodes; [v] any of the parameters but UT1 *)
Theorem c15_polynomial : forall T ltb days leap, @epochs T ltb days -> forall s t e d b a (v : rec T -> R) f,
  sorted days (mvec T s) -> ready s -> (1 <= d <= 9)%Z -> cut days (mvec T s) t b a -> b <> [] -> a <> [] ->
  ispoly (2 * usable b a d) f -> (forall r, In r (mvec T s) -> v r = f (days (rt T r))) ->
  In v [xp T; yp T; lod T; dX T; dY T] ->
  exists st r s', interpolate T ltb days leap s t e d = Ok (st, r, s') /\ v r = f (days t).
Proof. exact @interpolate_poly. Qed.
Print Assumptions c15_polynomial.
Theorem c15_polynomial_ut1 : forall T ltb days leap, @epochs T ltb days -> forall s t e d b a f,
  sorted days (mvec T s) -> ready s -> (1 <= d <= 9)%Z -> cut days (mvec T s) t b a -> b <> [] -> a <> [] ->
  ispoly (2 * usable b a d) f -> (forall r, In r (mvec T s) -> dut T r - rdat T r = f (days (rt T r))) ->
  exists st r s', interpolate T ltb days leap s t e d = Ok (st, r, s') /\ dut T r = f (days t) + leap t.
Proof. exact @interpolate_poly_dut. Qed.
Print Assumptions c15_polynomial_ut1.
(** the approximate UT1 query is the degree-1 interpolation *)
Theorem c15_approx_agrees : forall T ltb days leap, @epochs T ltb days -> forall s t e s' st v,
  sorted days (mvec T s) -> ready s -> approx_dut1 T ltb days leap s t = Ok (st, v, s') ->
  exists r, interpolate T ltb days leap s t e 1 = Ok (st, r, s') /\ dut T r = v.
Proof. exact @approx_agrees. Qed.
Print Assumptions c15_approx_agrees.

Example c15_nonvacuous : exists st r s', interpolate Z Z.ltb IZR (fun _ => 37) ex_series 2%Z (ex_rec 0) 3 = Ok (st, r, s') /\ xp Z r = 2 * 2.
Proof.
  destruct (c15_polynomial Z Z.ltb IZR (fun _ => 37) ex_epochs ex_series 2%Z (ex_rec 0) 3%Z (map ex_rec [0; 1; 2]%Z) (map ex_rec [3; 4; 5]%Z) (xp Z) (fun x => x * x) ex_sorted ex_ready) as (st & r & s' & H & P);
    [lia|exact ex_cut|discriminate|discriminate| | |left; reflexivity|].
  - exists [0; 0; 1]. split; [cbn; lia|]. intros x. cbn. ring.
  - intros r H. cbn in H. intuition subst; cbn; lra.
  - exists st, r, s'. split; [exact H|exact P].
Qed.

(** ** C16 independence of history *)
Theorem c16_history : forall T ltb days leap, @epochs T ltb days -> forall s s' t e d,
  sorted days (mvec T s) -> ready s -> reaches ltb days leap s s' ->
  interpolate T ltb days leap s' t e d = interpolate T ltb days leap s t e d /\ approx_dut1 T ltb days leap s' t = approx_dut1 T ltb days leap s t.
Proof. exact @history. Qed.
Print Assumptions c16_history.
Theorem c16_any_position : forall T ltb days leap, @epochs T ltb days -> forall s1 s2 t e d,
  mvec T s1 = mvec T s2 -> sorted days (mvec T s1) -> ready s1 -> ready s2 ->
  interpolate T ltb days leap s1 t e d = interpolate T ltb days leap s2 t e d.
Proof. exact @interpolate_history. Qed.
Print Assumptions c16_any_position.
Example c16_nonvacuous : exists s', reaches Z.ltb IZR (fun _ => 37) ex_series s' /\ last_it Z s' = Some 0%nat /\ s' <> ex_series.
Proof.
  exists (mkSer Z (mvec Z ex_series) (Some 0%nat)). split; [|split; [reflexivity|discriminate]].
  eapply re_interpolate with (t := (-1)%Z) (e := ex_rec 0) (d := 3%Z); [reflexivity|apply re_refl].
Qed.
(** on an unordered series the cached position does matter *)
Definition ex_unsorted (k : nat) : series Z := mkSer Z (map ex_rec [0; 5; 1; 4]%Z) (Some k).
Theorem c16_unsorted_refuted : exists r1 r2 s1 s2 : _,
  interpolate Z Z.ltb IZR (fun _ => 37) (ex_unsorted 2) 3%Z (ex_rec 0) 1 = Ok (Linear, r1, s1) /\
  interpolate Z Z.ltb IZR (fun _ => 37) (ex_unsorted 0) 3%Z (ex_rec 0) 1 = Ok (Linear, r2, s2) /\ last_it Z s1 <> last_it Z s2 /\ xp Z r1 <> xp Z r2.
Proof.
  eexists _, _, _, _. split; [reflexivity|]. split; [reflexivity|]. split; [discriminate|]. cbn. unfold linear. cbn. lra.
Qed.
Print Assumptions c16_unsorted_refuted.
(** adding a record, or copying the series, leaves an iterator that may not be used *)
Theorem c16_stale_refuted : forall T ltb days leap s r t e d, (d <= 9)%Z ->
  interpolate T ltb days leap (push_back T s r) t e d = UB /\ interpolate T ltb days leap (copy T s) t e d = UB /\
  interpolate T ltb days leap (push_back T (clear T s) r) t e d = UB.
Proof.
  intros T ltb days leap s r t e d D. unfold interpolate, MAX_DEGREE. replace (9 <? d)%Z with false by (symmetry; apply Z.ltb_ge; lia). repeat split; reflexivity.
Qed.
Print Assumptions c16_stale_refuted.

(** a record goes to the end; with the iterator reset the series can be used again *)
Theorem c16_append : forall T s r offset, (0 <= offset <= Z.of_nat (length (mvec T s)) + 1)%Z ->
  exists s', reset T (push_back T s r) offset = Ok s' /\ mvec T s' = (mvec T s ++ [r])%list /\ last_it T s' = Some (Z.to_nat offset).
Proof.
  intros T s r offset H. unfold reset, push_back. cbn [mvec]. rewrite app_length. cbn [length]. destruct (Z.ltb_spec offset 0); [lia|]. destruct (Z.leb_spec offset (Z.of_nat (length (mvec T s) + 1))); [|lia]. eexists. split; [reflexivity|]. split; reflexivity.
Qed.
Print Assumptions c16_append.

(** ** C17 regularisation *)
Theorem c17_roundtrip : forall T zonal s, deregularize T zonal (regularize T zonal s) = s /\ regularize T zonal (deregularize T zonal s) = s.
Proof. intros T zonal s. exact (conj (dereg_reg zonal s) (reg_dereg zonal s)). Qed.
Print Assumptions c17_roundtrip.
(** what each direction does *)
Theorem c17_effect : forall T zonal s, Forall2 (fun r r' =>
    dut T r' = dut T r - fst (zonal (rt T r)) / 1000000 /\ lod T r' = lod T r - snd (zonal (rt T r)) / 1000000 /\
    rt T r' = rt T r /\ xp T r' = xp T r /\ yp T r' = yp T r /\ dX T r' = dX T r /\ dY T r' = dY T r /\ rdat T r' = rdat T r /\ xrt T r' = xrt T r /\ yrt T r' = yrt T r)
  (mvec T s) (mvec T (regularize T zonal s)) /\ last_it T (regularize T zonal s) = last_it T s.
Proof.
  intros T zonal s. split; [|reflexivity]. unfold regularize, regularize_impl. cbn [mvec]. induction (mvec T s) as [|r l IH]; cbn; constructor; [|exact IH].
  destruct (zonal (rt T r)) as (u, w). cbn. repeat split; lra.
Qed.
Print Assumptions c17_effect.
Example c17_nonvacuous : dut Z (ex_rec 0) <> dut Z (hd (ex_rec 0) (mvec Z (regularize Z (fun _ => (1, 1)) ex_series))).
Proof. cbn. lra. Qed.

(** ** C18 parsing *)
(** the records not before [start] among those preceding the first one at or past [stop] *)
Theorem c18_file : forall T ltb tt_of_utc dat sdbl modf, word_scanner sdbl -> forall f start stop s lines rs,
  ltb start stop = true -> file_says (says_of tt_of_utc dat sdbl modf f) lines rs ->
  parse_details T ltb tt_of_utc dat sdbl modf f (Some lines) start stop s = Ok (0%Z, mkSer T (not_before ltb start (until ltb stop rs)) None).
Proof. exact @parse_says. Qed.
Print Assumptions c18_file.
(** for files in order of epoch: exactly the interval *)
Theorem c18_interval_partial : forall T ltb tt_of_utc dat sdbl modf, word_scanner sdbl -> forall days, @epochs T ltb days -> forall f start stop s lines rs,
  ltb start stop = true -> file_says (says_of tt_of_utc dat sdbl modf f) lines rs -> ordered days rs ->
  parse_details T ltb tt_of_utc dat sdbl modf f (Some lines) start stop s = Ok (0%Z, mkSer T (within ltb start stop rs) None).
Proof. exact @parse_ordered. Qed.
Print Assumptions c18_interval_partial.
(** with the choice of the format; afterwards the series can be interpolated (C14-C16 apply) *)
Theorem c18_ready : forall T ltb tt_of_utc dat sdbl modf, word_scanner sdbl -> forall days, @epochs T ltb days -> forall f start stop s lines rs,
  choose_c04_series lines = Some f -> ltb start stop = true -> file_says (says_of tt_of_utc dat sdbl modf f) lines rs -> sorted days rs ->
  exists s', parse_C04 T ltb tt_of_utc dat sdbl modf (Some lines) start stop s = Ok (0%Z, s') /\ mvec T s' = within ltb start stop rs /\
    sorted days (mvec T s') /\ ready s'.
Proof. exact @parse_C04_ready. Qed.
Print Assumptions c18_ready.
(** the format is that of the opening lines, quoted from IERS files *)
Definition opens (line : list Z) (text : string) : Prop := exists rest, line = (chars text ++ rest)%list.
Lemma starts_with_opens line h : starts_with line h = true <-> exists rest, line = (h ++ rest)%list.
Proof.
  revert line. induction h as [|c h IH]; intros line; [split; [exists line; reflexivity|destruct line; reflexivity]|]. destruct line as [|d line]; [split; [discriminate|intros (r & E); discriminate]|]. cbn [starts_with].
  rewrite Bool.andb_true_iff, Z.eqb_eq, IH. split; [intros (-> & r & ->); exists r; reflexivity|intros (r & E); injection E as -> ->; split; [reflexivity|exists r; reflexivity]].
Qed.
Theorem c18_recognised l1 l2 l3 rest : (length l1 < 256)%nat -> (length l2 < 256)%nat -> (length l3 < 256)%nat ->
  (choose_c04_series (l1 :: l2 :: l3 :: rest) = Some C0420 <->
     opens l1 "# EARTH ORIENTATION PARAMETER (EOP) PRODUCT CENTER CENTER (PARIS OBSERVATORY)" /\ opens l2 "# EOP (IERS) 20 C04 TIME SERIES  consistent with ITRF 2020 - sampled") /\
  (choose_c04_series (l1 :: l2 :: l3 :: rest) = Some C0414 <->
     opens (skip_blanks l1) "EARTH ORIENTATION PARAMETER (EOP) PRODUCT CENTER CENTER (PARIS OBSERVATORY)" /\ opens (skip_blanks l2) "INTERNATIONAL EARTH ROTATION AND REFERENCE SYSTEMS SERVICE" /\
     opens (skip_blanks l3) "EOP (IERS) 14 C04 TIME SERIES").
Proof.
  intros A B C. assert (G : forall l r, (length l < 256)%nat -> getline (l :: r) = (l, r)) by (intros l r H; unfold getline, MAX_LINE_CHARS; destruct (Z.leb_spec 256 (Z.of_nat (length l))); [lia|reflexivity]).
  assert (Q : forall line h, starts_with line h = true <-> exists rest, line = (h ++ rest)%list) by exact starts_with_opens. unfold choose_c04_series, opens. rewrite (G l1 _ A), (G l2 _ B), (G l3 _ C).
  change (chars "# EARTH ORIENTATION PARAMETER (EOP) PRODUCT CENTER CENTER (PARIS OBSERVATORY)") with h1c0420. change (chars "# EOP (IERS) 20 C04 TIME SERIES  consistent with ITRF 2020 - sampled") with h2c0420. change (chars "EARTH ORIENTATION PARAMETER (EOP) PRODUCT CENTER CENTER (PARIS OBSERVATORY)") with h1c0414.
  change (chars "INTERNATIONAL EARTH ROTATION AND REFERENCE SYSTEMS SERVICE") with h2c0414. change (chars "EOP (IERS) 14 C04 TIME SERIES") with h3c0414. rewrite <- !Q.
  assert (X : starts_with l1 h1c0420 = true -> starts_with (skip_blanks l1) h1c0414 = true -> False).
  { intros H1 H2. apply Q in H1 as (r & ->). vm_compute in H2. discriminate. }
  destruct (starts_with l1 h1c0420), (starts_with l2 h2c0420), (starts_with (skip_blanks l1) h1c0414), (starts_with (skip_blanks l2) h2c0414), (starts_with (skip_blanks l3) h3c0414);
    try (exfalso; apply X; reflexivity); split; split; intros H; try discriminate H; try (destruct H as (J & K); try discriminate J; try discriminate K; try (destruct K as (K & L); discriminate)); repeat split; reflexivity.
Qed.
Print Assumptions c18_recognised.
(** a first line of 256 characters or more is of neither kind: the lines after it are not read *)
Theorem c18_long_first l1 rest : (256 <= length l1)%nat -> choose_c04_series (l1 :: rest) = None.
Proof.
  intros H. assert (G : getline (l1 :: rest) = (firstn 255 l1, [])) by (unfold getline, MAX_LINE_CHARS; destruct (Z.leb_spec 256 (Z.of_nat (length l1))); [reflexivity|lia]).
  unfold choose_c04_series. rewrite G. destruct (starts_with _ _); [reflexivity|]. destruct (starts_with _ _); reflexivity.
Qed.
Print Assumptions c18_long_first.
Example c18_long_first_nonvacuous : choose_c04_series ((h1c0420 ++ repeat 32%Z 200) :: [h2c0420])%list = None /\ choose_c04_series (h1c0420 :: [h2c0420]) = Some C0420. Proof. split; vm_compute; reflexivity. Qed.
(** nothing is read without a file or with a file of another kind *)
Theorem c18_no_file T ltb tt_of_utc dat sdbl modf f start stop s lines : choose_c04_series lines = None ->
  parse_details T ltb tt_of_utc dat sdbl modf f None start stop s = Ok (1%Z, s) /\ parse_C04 T ltb tt_of_utc dat sdbl modf None start stop s = Ok (1%Z, s) /\
  parse_C04 T ltb tt_of_utc dat sdbl modf (Some lines) start stop s = Ok (1%Z, s).
Proof. intros H. unfold parse_C04, parse_details. rewrite H. destruct (negb (ltb start stop)); repeat split; reflexivity. Qed.
Print Assumptions c18_no_file.
Example c18_no_file_nonvacuous : choose_c04_series [chars "# EOP (IERS) 20 C04 TIME SERIES"] = None. Proof. reflexivity. Qed.
(** errors: interval, missing file, unreadable column in the interval, unreadable date, overlong line *)
Theorem c18_bad_interval : forall T ltb tt_of_utc dat sdbl modf f start stop s file,
  ltb start stop = false -> parse_details T ltb tt_of_utc dat sdbl modf f file start stop s = Ok (1%Z, s).
Proof. exact @parse_bad_interval. Qed.
Print Assumptions c18_bad_interval.
Theorem c18_malformed : forall T ltb tt_of_utc dat sdbl modf, word_scanner sdbl -> forall f start stop s l1 rs line l2,
  ltb start stop = true -> file_says (says_of tt_of_utc dat sdbl modf f) l1 rs -> Forall (fun r => ltb (rt T r) stop = true) rs ->
  broken_of ltb tt_of_utc sdbl modf f start stop line ->
  exists s', parse_details T ltb tt_of_utc dat sdbl modf f (Some (l1 ++ line :: l2)) start stop s = Ok (1%Z, s').
Proof. exact @parse_broken. Qed.
Print Assumptions c18_malformed.
Theorem c18_undated : forall T ltb tt_of_utc dat sdbl modf, word_scanner sdbl -> forall f start stop s l1 rs line l2,
  ltb start stop = true -> file_says (says_of tt_of_utc dat sdbl modf f) l1 rs -> Forall (fun r => ltb (rt T r) stop = true) rs ->
  undated_of sdbl f line ->
  exists c s', parse_details T ltb tt_of_utc dat sdbl modf f (Some (l1 ++ line :: l2)) start stop s = Ok (c, s') /\ (c = 1 \/ c = 2)%Z.
Proof. exact @parse_undated. Qed.
Print Assumptions c18_undated.
Theorem c18_long_line : forall T ltb tt_of_utc dat sdbl modf, word_scanner sdbl -> forall f start stop s l1 rs line l2,
  ltb start stop = true -> file_says (says_of tt_of_utc dat sdbl modf f) l1 rs -> Forall (fun r => ltb (rt T r) stop = true) rs ->
  (256 <= length line)%nat -> exists s', parse_details T ltb tt_of_utc dat sdbl modf f (Some (l1 ++ line :: l2)) start stop s = Ok (1%Z, s').
Proof. exact @parse_long. Qed.
Print Assumptions c18_long_line.
(** the scanner of FromChars.v qualifies *)
Theorem c18_scanner : word_scanner scan_dbl.
Proof. exact scan_dbl_word. Qed.
Print Assumptions c18_scanner.

(** example files: days as epochs *)
Definition w (n : nat) (s : string) : nat * list Z := (n, chars s).
Definition ex_words (mjd : string) := [w 3 mjd; w 2 "-0.5"; w 1 "2"; w 1 "0.25"; w 1 "4"; w 1 "5e-1"; w 1 "6"].
Definition ex_line (mjd : string) : list Z := (chars "1962   1   1" ++ join (ex_words mjd) (chars " 7 8"))%list.
Definition ex_tt (m : Z) (_ : R) : Z := m.
Ltac data_line m := exists (w 3 m), (tl (ex_words m)), (chars " 7 8"); do 7 eexists; split;
  [split; [cbn; lia|]; split; [reflexivity|]; split;
    [repeat (constructor; [split; [discriminate|]; repeat (constructor; [discriminate|]); constructor|]); constructor|]; split;
    [repeat (constructor; [cbn; lia|]); constructor|]; exists 49%Z, (tl (chars "1962   1   1")); repeat split; discriminate|];
  split; [reflexivity|]; split; [repeat (constructor; [reflexivity|]); constructor|]; reflexivity.
Definition ex_rec14 (m : Z) : rec Z :=
  mkR Z m (- (IZR 5 * pow10 (-1))) (IZR 2 * pow10 0) (IZR 25 * pow10 (-2)) (IZR 4 * pow10 0) (IZR 5 * pow10 (-1)) (IZR 6 * pow10 0) 37 0 0.
Lemma ex_says1 : says14 ex_tt (fun _ => 37) scan_dbl (ex_line "37665") (ex_rec14 37665%Z).
Proof. data_line "37665"%string. Qed.
Lemma ex_says2 : says14 ex_tt (fun _ => 37) scan_dbl (ex_line "37666") (ex_rec14 37666%Z).
Proof. data_line "37666"%string. Qed.
Lemma ex_says3 : says14 ex_tt (fun _ => 37) scan_dbl (ex_line "37667") (ex_rec14 37667%Z).
Proof. data_line "37667"%string. Qed.
Lemma ex_comment : ignored (chars "# comment").
Proof. split; [cbn; lia|]. right. eexists _, _. split; [reflexivity|]. right. reflexivity. Qed.
Example c18_nonvacuous :
  file_says (says_of ex_tt (fun _ => 37) scan_dbl (fun x => (0%Z, x)) C0414) [chars "# comment"; ex_line "37665"; []; ex_line "37666"; ex_line "37667"]
    [ex_rec14 37665%Z; ex_rec14 37666%Z; ex_rec14 37667%Z] /\
  within Z.ltb 37666%Z 37667%Z [ex_rec14 37665%Z; ex_rec14 37666%Z; ex_rec14 37667%Z] = [ex_rec14 37666%Z].
Proof.
  split; [|reflexivity]. apply fs_skip; [exact ex_comment|]. apply fs_data; [exact ex_says1|]. apply fs_skip; [split; [cbn; lia|left; reflexivity]|].
  apply fs_data; [exact ex_says2|]. apply fs_data; [exact ex_says3|]. apply fs_nil.
Qed.
(** a real file opening *)
Example c18_header_nonvacuous : choose_c04_series [(chars "     " ++ h1c0414)%list; h2c0414; (chars "  " ++ h3c0414)%list] = Some C0414 /\ choose_c04_series [h1c0420; h2c0420] = Some C0420.
Proof. split; vm_compute; reflexivity. Qed.

(** a file out of order: the record after the first one past the end is lost *)
Theorem c18_unordered_refuted : exists lines rs s',
  file_says (says_of ex_tt (fun _ => 37) scan_dbl (fun x => (0%Z, x)) C0414) lines rs /\
  parse_details Z Z.ltb ex_tt (fun _ => 37) scan_dbl (fun x => (0%Z, x)) C0414 (Some lines) 37665%Z 37667%Z (empty Z) = Ok (0%Z, s') /\
  In (ex_rec14 37666%Z) (within Z.ltb 37665%Z 37667%Z rs) /\ mvec Z s' = [].
Proof.
  exists [ex_line "37667"; ex_line "37666"], [ex_rec14 37667%Z; ex_rec14 37666%Z], (mkSer Z [] None).
  assert (H : file_says (says_of ex_tt (fun _ => 37) scan_dbl (fun x => (0%Z, x)) C0414) [ex_line "37667"; ex_line "37666"] [ex_rec14 37667%Z; ex_rec14 37666%Z])
    by (apply fs_data; [exact ex_says3|]; apply fs_data; [exact ex_says2|]; apply fs_nil).
  split; [exact H|]. split; [|split; [left; reflexivity|reflexivity]].
  rewrite (c18_file Z Z.ltb ex_tt _ scan_dbl _ scan_dbl_word C0414 37665%Z 37667%Z (empty Z) _ _ eq_refl H). reflexivity.
Qed.
Print Assumptions c18_unordered_refuted.
(** a short line is read past its end *)
Theorem c18_short_line_refuted : forall T ltb tt_of_utc dat sdbl modf f start stop s line l2, ltb start stop = true ->
  (0 < length line < 12)%nat -> (forall l, line <> 32%Z :: l) -> (forall l, line <> 35%Z :: l) ->
  parse_details T ltb tt_of_utc dat sdbl modf f (Some (line :: l2)) start stop s = UB.
Proof.
  intros T ltb tt_of_utc dat sdbl modf f start stop s line l2 L [L1 L2] N1 N2. unfold parse_details. rewrite L. cbn [negb loop].
  replace (MAX_LINE_CHARS <=? Z.of_nat (length line))%Z with false by (symmetry; apply Z.leb_gt; unfold MAX_LINE_CHARS; lia).
  assert (K : skipped line = false).
  { destruct line as [|c line]; [cbn in L1; lia|]. cbn. destruct (Z.eqb_spec c 32) as [->|]; [exfalso; eapply N1; reflexivity|]. destruct (Z.eqb_spec c 35) as [->|]; [exfalso; eapply N2; reflexivity|reflexivity]. }
  apply Nat.ltb_lt in L2. destruct f; cbn [step_of]; unfold line14, line20; rewrite K, L2; reflexivity.
Qed.
Print Assumptions c18_short_line_refuted.
(** C04/20 sampled every three hours: the MJD column has two decimals, the assertion stops the program *)
Theorem c18_hours_refuted : forall modf start stop l2, (start < stop)%Z -> modf (IZR 3766512 * pow10 (-2)) = (37665%Z, 12 / 100) ->
  parse_details Z Z.ltb ex_tt (fun _ => 37) scan_dbl modf C0420 (Some (chars "1962   1   1  3  37665.12  0 0 0 0 0 0 0 0" :: l2)) start stop (empty Z) = Abort.
Proof.
  intros modf start stop l2 L M. set (line := chars "1962   1   1  3  37665.12  0 0 0 0 0 0 0 0").
  assert (E : line20 Z Z.ltb ex_tt (fun _ => 37) scan_dbl modf start stop line = Abort).
  { unfold line20. change (skipped line) with false. change (Nat.ltb (length line) 12) with false. cbn iota.
    replace (scan_i32 (skip_blanks (skipn 12 line))) with (Some 3%Z, chars "  37665.12  0 0 0 0 0 0 0 0") by reflexivity. cbn iota.
    replace (Nat.eqb _ _) with false by reflexivity. cbn iota.
    replace (scan_dbl (skip_blanks (chars "  37665.12  0 0 0 0 0 0 0 0"))) with (Some (IZR 3766512 * pow10 (-2)), chars "  0 0 0 0 0 0 0 0") by reflexivity.
    cbn iota. replace (Nat.eqb _ _) with false by reflexivity. cbn iota. rewrite M. destruct (Req_EM_T (12 / 100) (3 / 24)); [exfalso; lra|reflexivity]. }
  unfold parse_details. apply Z.ltb_lt in L. rewrite L. cbn [negb loop step_of].
  change (MAX_LINE_CHARS <=? Z.of_nat (length line))%Z with false. cbn iota. rewrite E. reflexivity.
Qed.
Print Assumptions c18_hours_refuted.
