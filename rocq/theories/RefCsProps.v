From Coq Require Import Ascii String Reals ZArith List Bool Lia Lra.
From Verif Require Import Base CString FromChars PyModel AodMergeSpec PyProofs IcgemModel IcgemSpec IcgemLoop IcgemProps RefCsModel RefCsSpec RefCsProofs.
Import ListNotations.
Open Scope Z_scope.

(** ** C94: the scripts that compute reference values for coefficients that vary with time *)
(** dates yyyymmdd.hhmm; sixty minutes are an hour, more end the script *)
Theorem c94_dates mk ymdhm ymdh y m d h i ny nm nd nh ni t : calendar mk ymdhm ymdh -> digits 4 y ny -> digits 2 m nm -> digits 2 d nd -> digits 2 h nh -> digits 2 i ni ->
  (ni < 60 -> mk ny nm nd nh ni = Some t -> d2s ymdhm ymdh (y ++ m ++ d ++ [46] ++ h ++ i) = Val t) /\
  (ni = 60 -> mk ny nm nd nh 0 = Some t -> d2s ymdhm ymdh (y ++ m ++ d ++ [46] ++ h ++ i) = Val (t + 3600)) /\
  (60 < ni -> d2s ymdhm ymdh (y ++ m ++ d ++ [46] ++ h ++ i) = Raise (Exit 1)).
Proof.
  intros K Y M D H I. rewrite (d2s_ok mk ymdhm ymdh K y m d h i ny nm nd nh ni Y M D H I).
  split; [intros L ->; apply Z.ltb_lt in L; rewrite L; reflexivity|]. split; [intros -> ->; reflexivity|]. intros L. destruct (Z.ltb_spec ni 60); [lia|]. destruct (Z.eqb_spec ni 60); [lia|reflexivity].
Qed.
(** the value at an epoch: the records in force, trend and waves in Julian years since their first date *)
Theorem c94_value ymdhm ymdh table rs n m t : Forall2 (same_record (fun w t => d2s ymdhm ymdh w = Val t)) table rs -> Forall (fun r => rl r = n /\ rm r = m) rs ->
  cs_at ymdhm ymdh table t = Val (value_C julian_years t (filter (valid_at t) rs) n m, value_S julian_years t (filter (valid_at t) rs) n m).
Proof.
  intros F NM. unfold cs_at. rewrite (rows_ok ymdhm ymdh t table rs F), !Rplus_0_l. unfold value_C, value_S.
  assert (E : filter (fun r => (rl r =? n) && (rm r =? m)) (filter (valid_at t) rs) = filter (valid_at t) rs).
  { clear F. induction NM as [|r rs (A & B) _ IH]; [reflexivity|]. cbn [filter]. destruct (valid_at t r); [|exact IH]. cbn [filter]. rewrite A, B, !Z.eqb_refl. cbn [andb]. rewrite IH. reflexivity. }
  rewrite E. reflexivity.
Qed.
(** no record in force: zero *)
Theorem c94_outside ymdhm ymdh table rs t : Forall2 (same_record (fun w t => d2s ymdhm ymdh w = Val t)) table rs -> Forall (fun r => t < rt0 r \/ rt1 r <= t) rs -> cs_at ymdhm ymdh table t = Val (0, 0)%R.
Proof.
  intros F O. unfold cs_at. rewrite (rows_ok ymdhm ymdh t table rs F), !Rplus_0_l. assert (E : filter (valid_at t) rs = []).
  { clear F. induction O as [|r rs A _ IH]; [reflexivity|]. cbn [filter]. unfold valid_at at 1. destruct (Z.leb_spec (rt0 r) t), (Z.ltb_spec t (rt1 r)); cbn [andb]; try exact IH. lia. }
  rewrite E. reflexivity.
Qed.
(** the reader gives the same for a file of version 2 whose records of this degree and order are those of the table *)
Theorem c94_reader ymdhm ymdh table sdbl mkdate MIN MAX er D N M t lines rs n m : word_scanner sdbl -> M <= N <= D -> n <= N -> m <= M ->
  Forall2 (says2 sdbl mkdate MIN MAX er) lines rs -> Forall (fun r => used2 N M t r = true -> triangular r) rs ->
  Forall2 (same_record (fun w t => d2s ymdhm ymdh w = Val t)) table (filter (fun r => (rl r =? n) && (rm r =? m)) rs) ->
  exists a b cs, parse_data_v2 sdbl mkdate MIN MAX julian_years (Some er) D N M t lines = Ok (0, a, b, cs) /\ cs_at ymdhm ymdh table t = Val (cs n m).
Proof.
  intros W L HN HM F T S. destruct (c22_version2 sdbl mkdate MIN MAX julian_years er D N M t lines rs W L F T) as (cs & E & V). eexists _, _, cs. split; [exact E|]. rewrite V.
  assert (NM : Forall (fun r => rl r = n /\ rm r = m) (filter (fun r => (rl r =? n) && (rm r =? m)) rs)).
  { apply Forall_forall. intros r I. apply filter_In in I as (_ & I). apply andb_true_iff in I as (A & B). apply Z.eqb_eq in A, B. exact (conj A B). }
  rewrite (c94_value ymdhm ymdh table _ n m t S NM).
  assert (Q : filter (fun r => (rl r =? n) && (rm r =? m)) (filter (used2 N M t) rs) = filter (fun r => (rl r =? n) && (rm r =? m)) (filter (valid_at t) (filter (fun r => (rl r =? n) && (rm r =? m)) rs))).
  { clear -HN HM. induction rs as [|r rs IH]; [reflexivity|]. cbn [filter]. destruct ((rl r =? n) && (rm r =? m)) eqn:B.
    - pose proof B as B0. apply andb_true_iff in B as (B1 & B2). apply Z.eqb_eq in B1, B2. assert (U : used2 N M t r = valid_at t r).
      { unfold used2, within. rewrite B1, B2. replace (n <=? N) with true by (symmetry; apply Z.leb_le; exact HN). replace (m <=? M) with true by (symmetry; apply Z.leb_le; exact HM). apply andb_true_r. }
      rewrite U. cbn [filter]. destruct (valid_at t r); [|exact IH]. cbn [filter]. rewrite B0, IH. reflexivity.
    - destruct (used2 N M t r); [|exact IH]. cbn [filter]. rewrite B. exact IH. }
  unfold value_C, value_S. rewrite Q. reflexivity.
Qed.
(** a wave in force without a period ends the script *)
Theorem c94_period ymdhm ymdh d r t a b : coef d = chars "asin" \/ coef d = chars "acos" -> per d = None -> d2s ymdhm ymdh (t0 d) = Val a -> d2s ymdhm ymdh (t1 d) = Val b -> a <= t < b ->
  cs_at ymdhm ymdh (d :: r) t = Raise KeyError.
Proof.
  intros K P A B (T1 & T2). unfold cs_at. cbn [add_rows]. unfold add_row. rewrite A. cbn [pbind]. rewrite B. cbn [pbind]. apply Z.leb_le in T1. apply Z.ltb_lt in T2. rewrite T1, T2, P. destruct K as [-> | ->]; reflexivity.
Qed.

(** C(4,0) of EIGEN-5C: what the reader gives for a file of version 1 that has the two lines cited in the script *)
Definition line_gfct : list Z := chars "gfct   4    0 0.539988144712e-06 0.000000000000e+00 0.1095e-10 0.0000e+00 20041001".
Definition line_dot : list Z := chars "dot    4    0 0.470000000000e-11 0.000000000000e+00 0.0000e+00 0.0000e+00".
Theorem c94_eigen5c ymd mkdate er D N M t before r1 after r2 : ymd (chars "20041001") = Some (mkdate 2004 10 1 0 0) -> sigma_columns er = 2%nat -> 4 <= N -> 0 <= M <= N -> N <= D ->
  Forall2 (says1 scan_dbl mkdate er) before r1 -> Forall2 (says1 scan_dbl mkdate er) after r2 -> Forall (fun r => ~ (rl r = 4 /\ rm r = 0)) (r1 ++ r2) ->
  Forall (fun r => within N M r = true -> triangular r) (r1 ++ r2) -> after_gfct None r1 -> after_gfct None r2 ->
  exists a b cs, parse_data_v1 scan_dbl mkdate julian_years (Some er) D N M t (before ++ [line_gfct; line_dot] ++ after) = Ok (0, a, b, cs) /\ cs40 ymd t = Val (cs 4 0).
Proof.
  intros Y ER N4 M0 ND F1 F2 NO T A1 A2. set (g := mkR gfct 4 0 (dv "0.539988144712e-06") (dv "0.000000000000e+00") (mkdate 2004 10 1 0 0) 0 0). set (d := mkR trnd 4 0 (dv "0.470000000000e-11") (dv "0.000000000000e+00") 0 0 0).
  assert (G : says1 scan_dbl mkdate er line_gfct g).
  { split; [cbn; lia|]. exists (map chars ["0.1095e-10"; "0.0000e+00"]%string), [chars "20041001"], (chars "20041001"). split; [reflexivity|]. split; [|split; [ex_d1|rewrite ER; reflexivity]].
    ex_line (chars "   4    0 0.539988144712e-06 0.000000000000e+00 0.1095e-10 0.0000e+00 20041001") (map chars ["0.1095e-10"; "0.0000e+00"]%string) [chars "20041001"]. }
  assert (H : says1 scan_dbl mkdate er line_dot d).
  { split; [cbn; lia|]. exists (map chars ["0.0000e+00"; "0.0000e+00"]%string), []. right.
    ex_line (chars "    4    0 0.470000000000e-11 0.000000000000e+00 0.0000e+00 0.0000e+00") (map chars ["0.0000e+00"; "0.0000e+00"]%string) (@nil (list Z)). }
  assert (S : Forall2 (says1 scan_dbl mkdate er) (before ++ [line_gfct; line_dot] ++ after) (r1 ++ [g; d] ++ r2)) by (apply Forall2_app; [exact F1|]; apply Forall2_app; [constructor; [exact G|constructor; [exact H|constructor]]|exact F2]).
  apply Forall_app in T as (T1 & T2). apply Forall_app in NO as (NO1 & NO2).
  assert (Z40 : forall rs, Forall (fun r => ~ (rl r = 4 /\ rm r = 0)) rs -> Forall (fun r => is40 r = false) rs).
  { intros rs F. eapply Forall_impl; [|exact F]. cbn beta. intros r X. unfold is40. destruct (Z.eqb_spec (rl r) 4), (Z.eqb_spec (rm r) 0); try reflexivity. exfalso. auto. }
  assert (AG : forall rs cur, after_gfct None rs -> after_gfct cur rs).
  { induction rs as [|r rs IH]; [reflexivity|]. intros cur. cbn [after_gfct]. destruct (rk r); try (apply IH); try (intros (X & _); discriminate X). exact (fun x => x). }
  assert (AA : after_gfct None (r1 ++ [g; d] ++ r2)).
  { assert (Q : forall rs cur, after_gfct cur rs -> after_gfct cur (rs ++ [g; d] ++ r2)); [|apply Q, A1]. induction rs as [|r rs IH]; intros cur.
    - intros _. cbn [app after_gfct g d rk rl rm]. split; [reflexivity|]. apply AG, A2.
    - cbn [app after_gfct]. destruct (rk r); try (apply IH); intros (X & X2); (split; [exact X|apply IH, X2]). }
  destruct (c22_version1 scan_dbl mkdate julian_years er D N M t _ _ 0 c22_scanner (conj (proj2 M0) ND) S) as (cs & E & V).
  { apply Forall_app. split; [exact T1|]. constructor; [intros _; unfold triangular, g; cbn; lia|]. constructor; [intros _; unfold triangular, d; cbn; lia|]. exact T2. }
  { exact AA. }
  eexists _, _, cs. split; [exact E|]. unfold cs40. rewrite Y. cbn [ofopt pbind]. rewrite V. f_equal.
  destruct (dated_app 0 r1 ([g; d] ++ r2)) as (ref & ->). change (dated ref ([g; d] ++ r2)) with ([g; mkR trnd 4 0 (rC d) (rS d) (mkdate 2004 10 1 0 0) 0 0] ++ dated (mkdate 2004 10 1 0 0) r2).
  unfold value_C, value_S. change (fun r : drec => (rl r =? 4) && (rm r =? 0)) with is40. rewrite !filter_app, (dated_not40 N M 0 r1 (Z40 r1 NO1)), (dated_not40 N M _ r2 (Z40 r2 NO2)).
  assert (W : forall x, rl x = 4 -> rm x = 0 -> within N M x = true) by (intros x X1 X2; unfold within; rewrite X1, X2; apply andb_true_iff; split; apply Z.leb_le; lia).
  cbn [filter]. rewrite !W by reflexivity. unfold is40, g, d, sum, factor. cbn [filter rl rm Z.eqb Pos.eqb andb app map fold_right rk rt0 rC rS].
  rewrite years_ok. replace (dv "0.539988144712e-06") with (0.539988144712e-06)%R by (change (dv "0.539988144712e-06") with (IZR 539988144712 * / IZR 10 ^ 18)%R; rewrite pow_IZR; change (10 ^ Z.of_nat 18) with 1000000000000000000; lra).
  replace (dv "0.470000000000e-11") with (0.470000000000e-11)%R by (change (dv "0.470000000000e-11") with (IZR 470000000000 * / IZR 10 ^ 23)%R; rewrite pow_IZR; change (10 ^ Z.of_nat 23) with 100000000000000000000000; lra).
  replace (dv "0.000000000000e+00") with 0%R by (change (dv "0.000000000000e+00") with (IZR 0 * / IZR 10 ^ 12)%R; ring). f_equal; lra.
Qed.

Example c94_eigen5c_nonvacuous : exists r, Forall2 (says1 scan_dbl ex_date Formal) [chars "gfc    0    0  1.0  0.0  0.1 0.1"] [r] /\ ~ (rl r = 4 /\ rm r = 0) /\ (within 4 4 r = true -> triangular r) /\ after_gfct None [r] /\
  exists a b cs, parse_data_v1 scan_dbl ex_date julian_years (Some Formal) 360 4 4 0 ([chars "gfc    0    0  1.0  0.0  0.1 0.1"] ++ [line_gfct; line_dot] ++ []) = Ok (0, a, b, cs) /\ cs40 (fun _ => Some (ex_date 2004 10 1 0 0)) 0 = Val (cs 4 0).
Proof.
  exists (mkR gfc 0 0 (dv "1.0") (dv "0.0") 0 0 0).
  assert (F : Forall2 (says1 scan_dbl ex_date Formal) [chars "gfc    0    0  1.0  0.0  0.1 0.1"] [mkR gfc 0 0 (dv "1.0") (dv "0.0") 0 0 0]).
  { constructor; [|constructor]. split; [cbn; lia|]. exists (map chars ["0.1"; "0.1"]%string), []. ex_line (chars "    0    0  1.0  0.0  0.1 0.1") (map chars ["0.1"; "0.1"]%string) (@nil (list Z)). }
  split; [exact F|]. split; [cbn; lia|]. split; [intros _; unfold triangular; cbn; lia|]. split; [exact I|].
  refine (c94_eigen5c _ ex_date Formal 360 4 4 0 _ [mkR gfc 0 0 (dv "1.0") (dv "0.0") 0 0 0] [] [] eq_refl eq_refl _ _ _ F (Forall2_nil _) _ _ I I); try lia; (constructor; [|constructor]); [cbn; lia|intros _; unfold triangular; cbn; lia].
Qed.

(** two entries of the table of EIGEN-6S4v2, lines 47 and 49; a calendar of equal months *)
Definition example_mk (y m d h i : Z) : option Z := Some (((((y * 12 + m) * 31 + d) * 24 + h) * 60 + i) * 60).
Definition example_ymdhm (s : list Z) : option Z :=
  if digits_val (skipn 11 s) <? 60 then example_mk (digits_val (firstn 4 s)) (digits_val (firstn 2 (skipn 4 s))) (digits_val (firstn 2 (skipn 6 s))) (digits_val (firstn 2 (skipn 9 s))) (digits_val (skipn 11 s)) else None.
Definition example_ymdh (s : list Z) : option Z := example_mk (digits_val (firstn 4 s)) (digits_val (firstn 2 (skipn 4 s))) (digits_val (firstn 2 (skipn 6 s))) (digits_val (firstn 2 (skipn 9 s))) 0.
Definition example_table : list row := [mkRow (chars "gfct") (-2.12054938127E-08) 5.40642150178E-09 (chars "20040101.0000") (chars "20041226.0060") None;
  mkRow (chars "acos") (-6.25842073093E-13) 4.56159324176E-12 (chars "20040101.0000") (chars "20041226.0060") (Some 1%R)].
Definition day (y m d h : Z) : Z := ((((y * 12 + m) * 31 + d) * 24 + h) * 60 + 0) * 60.
Definition example_records : list drec := [IcgemSpec.mkR gfct 16 8 (-2.12054938127E-08) 5.40642150178E-09 (day 2004 1 1 0) (day 2004 12 26 1) 0;
  IcgemSpec.mkR acos 16 8 (-6.25842073093E-13) 4.56159324176E-12 (day 2004 1 1 0) (day 2004 12 26 1) 1].
Example c94_nonvacuous : calendar example_mk example_ymdhm example_ymdh /\ Forall2 (same_record (fun w t => d2s example_ymdhm example_ymdh w = Val t)) example_table example_records /\
  Forall (fun r => rl r = 16 /\ rm r = 8) example_records /\ filter (valid_at (day 2004 12 26 0)) example_records = example_records.
Proof.
  split.
  { intros y m d h i ny nm nd nh ni (L1 & _ & V1) (L2 & _ & V2) (L3 & _ & V3) (L4 & _ & V4) (L5 & _ & V5).
    destruct y as [|y1 [|y2 [|y3 [|y4 [|]]]]]; try discriminate L1. destruct m as [|m1 [|m2 [|]]]; try discriminate L2. destruct d as [|d1 [|d2 [|]]]; try discriminate L3. destruct h as [|h1 [|h2 [|]]]; try discriminate L4. destruct i as [|i1 [|i2 [|]]]; try discriminate L5.
    unfold example_ymdhm, example_ymdh. cbn [app skipn firstn]. rewrite V1, V2, V3, V4, V5. split; reflexivity. }
  split. { constructor; [|constructor; [|constructor]]; (split; [reflexivity|]; split; [discriminate|]; split; [reflexivity|]; split; [reflexivity|]; split; [reflexivity|]; split; [reflexivity|]); [intros [E|E]; discriminate E|reflexivity]. }
  split; [repeat constructor|reflexivity].
Qed.
Print Assumptions c94_dates.
Print Assumptions c94_value.
Print Assumptions c94_outside.
Print Assumptions c94_reader.
Print Assumptions c94_period.
Print Assumptions c94_eigen5c.
