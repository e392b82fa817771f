(** Property theorems for C68: celestial intermediate pole and origin. *)
From Coq Require Import Reals ZArith List Bool Lia Lra.
From Verif Require Import Base Poly Angles PiBound Vec FundModel FundSpec FundProofs CipRow CipTabS CipTabX CipTabY CipTabXY CipModel CipSpec CipProofs CipProofs2 CipProofs3.
From Verif Require RotModel RotProps.
Import ListNotations.
Open Scope R_scope.

(** the combined table is walked within its bounds, from the first to the last row *)
Theorem c68_rows F t : length F = 14%nat -> exists x y, walk XyLunSol F (tpow t) XyPln 0 0 = Ok (x, y, []).
Proof. intros H. exists (series X_tables F t), (series Y_tables F t). exact (walk_tables F t H). Qed.
(** and gives the two coordinates of (5.16), in microarcseconds *)
Theorem c68_pole F t : length F = 14%nat -> detail_xycip06a F t = Ok (X_iers F t, Y_iers F t).
Proof. exact (combined F t). Qed.
(** the separate function for Y is the same *)
Theorem c68_y F t : length F = 14%nat -> detail_ycip06a F t = Y_iers F t.
Proof. exact (ycip_iers F t). Qed.
(** the separate function for X: the cosine coefficient of the leading term for j = 1 has lost its last digit *)
Theorem c68_x_partial F t : length F = 14%nat -> X_iers F t - detail_xcip06a F t = 0.01 * t * cos (nth 4 F 0).
Proof. exact (x_gap F t). Qed.
Theorem c68_x_error F t : length F = 14%nat -> Rabs (X_iers F t - detail_xcip06a F t) <= 0.01 * Rabs t.
Proof.
  intros H. rewrite x_gap by exact H. rewrite !Rabs_mult, (Rabs_pos_eq 0.01) by lra. pose proof (COS_bound (nth 4 F 0)). assert (Rabs (cos (nth 4 F 0)) <= 1) by (apply Rabs_le; lra).
  pose proof (Rabs_pos t). nra.
Qed.
Theorem c68_versions_refuted : exists tt x y fa, xycip06a tt = Ok (x, y, fa) /\ (x, y, fa) <> extra_xycip06a tt.
Proof. exact versions_differ. Qed.
(** the locator: table 5.2d; the array is longer than the table *)
Theorem c68_locator F t x y : length F = 14%nat -> detail_s06 F t x y = uas (S_iers F t) - x * y / 2.
Proof. exact (locator F t x y). Qed.

(** ** functions of an epoch *)
Theorem c68_epoch tt : let t := jcenturies_sinceJ2000 tt in
  xycip06a tt = Ok (uas (X_iers (iers_arguments t) t), uas (Y_iers (iers_arguments t) t), arguments t).
Proof.
  intros t. unfold xycip06a. cbv zeta. rewrite combined by apply arguments_length. cbn [bind]. rewrite !uas_sec.
  unfold X_iers, Y_iers, series. rewrite !(series_eqm (arguments _) (iers_arguments _)) by apply arguments_eqm. reflexivity.
Qed.
Theorem c68_epoch_locator tt x y : let t := jcenturies_sinceJ2000 tt in s06 tt x y = uas (S_iers (iers_arguments t) t) - x * y / 2.
Proof.
  intros t. unfold s06. cbv zeta. rewrite locator by apply arguments_length.
  unfold S_iers, series. rewrite (series_eqm (arguments _) (iers_arguments _)) by apply arguments_eqm. reflexivity.
Qed.
(** the arguments handed out by one serve the other *)
Theorem c68_overloads tt x y a b fa : xycip06a tt = Ok (a, b, fa) -> s06_fargs tt x y fa = s06 tt x y.
Proof. rewrite c68_epoch. intros [= _ _ <-]. reflexivity. Qed.
Theorem c68_extra tt x y fa : xycip06a tt = Ok (x, y, fa) -> snd (fst (extra_xycip06a tt)) = y /\ snd (extra_xycip06a tt) = fa /\
  Rabs (x - fst (fst (extra_xycip06a tt))) <= uas (0.01 * Rabs (jcenturies_sinceJ2000 tt)).
Proof.
  unfold xycip06a, extra_xycip06a. cbv zeta. rewrite combined by apply arguments_length. cbn [bind fst snd]. intros [= <- <- <-].
  split; [rewrite ycip_iers by apply arguments_length; reflexivity|]. split; [reflexivity|]. rewrite !uas_sec.
  match goal with |- Rabs (uas ?a - uas ?b) <= _ => replace (uas a - uas b) with (uas (a - b)) by (unfold uas; field) end.
  apply uas_bound, c68_x_error, arguments_length.
Qed.
(** whole turns of the arguments change nothing *)
Theorem c68_turns F G t x y : length F = 14%nat -> length G = 14%nat -> same_angles F G ->
  detail_xycip06a F t = detail_xycip06a G t /\ detail_xcip06a F t = detail_xcip06a G t /\ detail_ycip06a F t = detail_ycip06a G t /\ detail_s06 F t x y = detail_s06 G t x y.
Proof.
  intros HF HG H. rewrite !combined, !locator, !ycip_iers, !xcip_series by assumption. unfold X_iers, Y_iers, S_iers, series.
  rewrite !(series_eqm F G) by exact H. refine (conj eq_refl (conj eq_refl (conj eq_refl eq_refl))).
Qed.
(** so that nothing jumps where an argument is reduced *)
Theorem c68_continuous u : continuity_pt (fun t => X_iers (arguments t) t) u /\ continuity_pt (fun t => Y_iers (arguments t) t) u /\ continuity_pt (fun t => S_iers (arguments t) t) u.
Proof. split; [|split]; apply cont_iers. Qed.

(** ** sizes *)
(** within ten centuries the pole stays near the axis: the square root in the spherical angles is defined *)
Theorem c68_near tt : Rabs (jcenturies_sinceJ2000 tt) <= 10 -> exists x y fa, xycip06a tt = Ok (x, y, fa) /\ Rabs x <= 0.1 /\ Rabs y <= 0.02 /\ x * x + y * y < 1.
Proof.
  intros H. do 3 eexists. split; [apply c68_epoch|]. destruct (pole_bound (iers_arguments (jcenturies_sinceJ2000 tt)) _ H) as [A B]. split; [exact A|]. split; [exact B|].
  apply Rabs_le_inv in A, B. nra.
Qed.
(** s + XY/2 stays below 0.081 arc seconds for a century *)
Theorem c68_locator_size F t x y : length F = 14%nat -> Rabs t <= 1 -> Rabs (detail_s06 F t x y + x * y / 2) <= uas 81000.
Proof.
  intros HF H. rewrite locator by exact HF. replace (uas (S_iers F t) - x * y / 2 + x * y / 2) with (uas (S_iers F t)) by ring. apply uas_bound, s_bound, H.
Qed.
(** the rotation of c2i06a with these functions takes the pole to the observed pole *)
Definition cip (tt : epoch) : R * R := match xycip06a tt with Ok (x, y, _) => (x, y) | _ => (0, 0) end.
Theorem c68_rotation era00 tt2ut1 jc tt o : Rabs (jcenturies_sinceJ2000 tt) <= 10 -> Rabs (RotModel.e_dX o) <= 1000 -> Rabs (RotModel.e_dY o) <= 1000 ->
  let t := jcenturies_sinceJ2000 tt in let F := iers_arguments t in
  let X := uas (X_iers F t + 1e6 * RotModel.e_dX o) in let Y := uas (Y_iers F t + 1e6 * RotModel.e_dY o) in
  let xp := RotModel.e_xp o * PI / 648000 in let yp := RotModel.e_yp o * PI / 648000 in
  RotModel.qapp (RotModel.c2i06a epoch cip s06 era00 tt2ut1 jc tt o) (mk3 X Y (sqrt (1 - (X * X + Y * Y)))) = mk3 (sin xp) (- sin yp * cos xp) (cos yp * cos xp).
Proof.
  intros H HX HY t F X Y xp yp. pose proof (pole_bound F t H) as [A B]. pose proof (RotProps.c43_epoch_pole epoch cip s06 era00 tt2ut1 jc tt o) as K. cbv zeta in K.
  assert (V : cip tt = (uas (X_iers F t), uas (Y_iers F t))) by (unfold cip; rewrite c68_epoch; reflexivity). rewrite V in K. cbn [fst snd] in K.
  replace (uas (X_iers F t) + RotModel.e_dX o * PI / 648000) with X in K by (unfold X, uas; lra).
  replace (uas (Y_iers F t) + RotModel.e_dY o * PI / 648000) with Y in K by (unfold Y, uas; lra).
  apply K. clear K. apply Rabs_le_inv in A, B, HX, HY.
  assert (D : forall d, -1000 <= d <= 1000 -> - 0.005 <= uas (1e6 * d) <= 0.005) by (intros d Hd; unfold uas; pose proof pi_bounds; nra).
  assert (EX : X = uas (X_iers F t) + uas (1e6 * RotModel.e_dX o)) by (unfold X, uas; lra). assert (EY : Y = uas (Y_iers F t) + uas (1e6 * RotModel.e_dY o)) by (unfold Y, uas; lra).
  pose proof (D _ HX). pose proof (D _ HY). nra.
Qed.

(** ** the tables *)
(** no two terms of a series have the same or opposite arguments, and none has the argument zero: the coefficients are determined by the function *)
Theorem c68_independent : Forall independent (X_tables ++ Y_tables ++ S_tables).
Proof. exact tables_independent. Qed.
(** fourteen multipliers that fit int8_t *)
Theorem c68_multipliers : Forall (Forall (fun r => length (mult r) = 14%nat /\ Forall (fun z => (-128 <= z <= 127)%Z) (mult r))) ([C0; C1; C2; C3; C4] ++ [X0; X1; X2; X3; X4] ++ Y_tables).
Proof. exact tables_fit. Qed.
(** numbers of terms of tables 5.2a, 5.2b, 5.2d *)
Theorem c68_terms : map (@length row) X_tables = [1306; 253; 36; 4; 1]%nat /\ map (@length row) Y_tables = [962; 277; 30; 5; 1]%nat /\ map (@length row) S_tables = [33; 3; 25; 4; 1]%nat.
Proof. vm_compute. repeat split. Qed.
(** the leading terms of tables 5.2a and 5.2b (published values) *)
Theorem c68_leading : Forall (fun r => In r X0) [T (-684431844) 132867 0 0 0 0 1 0 0 0 0 0 0 0 0 0; T (-52390804) (-54475) 0 0 2 (-2) 2 0 0 0 0 0 0 0 0 0; T (-9055222) 11123 0 0 2 0 2 0 0 0 0 0 0 0 0 0;
    T 8216876 (-2764) 0 0 0 0 2 0 0 0 0 0 0 0 0 0; T 5870702 47005 0 1 0 0 0 0 0 0 0 0 0 0 0 0; T 2828828 (-3469) 1 0 0 0 0 0 0 0 0 0 0 0 0 0] /\
  Forall (fun r => In r Y0) [T 153818 920523626 0 0 0 0 1 0 0 0 0 0 0 0 0 0; T (-45866) 57303342 0 0 2 (-2) 2 0 0 0 0 0 0 0 0 0; T 13741 9784669 0 0 2 0 2 0 0 0 0 0 0 0 0 0;
    T (-2905) (-8961824) 0 0 0 0 2 0 0 0 0 0 0 0 0 0; T (-1740) 2243842 0 1 2 (-2) 2 0 0 0 0 0 0 0 0 0; T 3180 2006950 0 0 2 0 1 0 0 0 0 0 0 0 0 0] /\
  In (T 15304179 85332 0 0 0 0 1 0 0 0 0 0 0 0 0 0) Y1 /\ In (T 203798 8146 0 0 0 0 1 0 0 0 0 0 0 0 0 0) X2 /\ In (T 12056 (-230127) 0 0 0 0 1 0 0 0 0 0 0 0 0 0) Y2.
Proof.
  assert (M : forall r tab, existsb (fun q => term_eqb (0%nat, r) (0%nat, q)) tab = true -> In r tab).
  { intros r tab E. apply existsb_exists in E. destruct E as (q & I & E). apply term_eqb_ok in E. injection E as ->. exact I. }
  split; [|split]; [| |split; [|split]]; repeat (apply Forall_cons; [apply M; vm_compute; reflexivity|]); try apply Forall_nil; apply M; vm_compute; reflexivity.
Qed.

Example c68_nonvacuous : length (arguments 1) = 14%nat /\ Rabs (jcenturies_sinceJ2000 century) <= 1 /\ same_angles (arguments 1) (iers_arguments 1).
Proof. split; [reflexivity|]. split; [rewrite century_one, Rabs_R1; lra|apply arguments_eqm]. Qed.
Print Assumptions c68_rows.
Print Assumptions c68_pole.
Print Assumptions c68_y.
Print Assumptions c68_x_partial.
Print Assumptions c68_x_error.
Print Assumptions c68_versions_refuted.
Print Assumptions c68_locator.
Print Assumptions c68_epoch.
Print Assumptions c68_epoch_locator.
Print Assumptions c68_overloads.
Print Assumptions c68_extra.
Print Assumptions c68_turns.
Print Assumptions c68_continuous.
Print Assumptions c68_near.
Print Assumptions c68_locator_size.
Print Assumptions c68_rotation.
Print Assumptions c68_independent.
Print Assumptions c68_multipliers.
Print Assumptions c68_terms.
Print Assumptions c68_leading.
