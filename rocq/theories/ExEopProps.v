From Coq Require Import Reals ZArith List Bool Lia Lra.
From Verif Require Import Base Angles Poly PiBound DoodsonArgModel FundModel FundSpec EopModel EopSpec EopProofs EopProps EtvModel EtvSpec ExEopModel ExEopSpec ExEopProofs.
Import ListNotations.
Open Scope R_scope.

(** ** C90: the example program for the Earth orientation parameters *)
(** [dat]: leap seconds, [tt2ut1]: of the datetime library. With nine records in order the program returns 0 after one line for
    every half minute from the first epoch on, before the last; it never finds an epoch out of bounds *)
Theorem c90_run dat tt2ut1 s x l y e : sorted mjd (mvec epoch s) -> ready s -> length (mvec epoch s) = 9%nat -> mvec epoch s = x :: l -> nth_error (mvec epoch s) 8 = Some y ->
  exists out tab, epochs_between (mjd (rt epoch x)) (mjd (rt epoch y)) (length out) /\
    (forall fuel, (length out <= fuel)%nat -> main dat tt2ut1 fuel (Some s) e = Ok (Exit 0, out)) /\
    (forall fuel, (fuel < length out)%nat -> exists o, main dat tt2ut1 fuel (Some s) e = Ok (Running, o)) /\
    Forall2 without_zonal (mvec epoch s) tab /\
    (forall k p, nth_error out k = Some p -> exists t, mjd t = mjd (rt epoch x) + INR k * half_minute /\ printed dat tt2ut1 tab t p).
Proof.
  intros S Rd L E N. destruct (main_ok dat tt2ut1 s x l y e S Rd L E N) as (out & A & B & C & D & _). exists out, (map off (mvec epoch s)).
  exact (conj A (conj B (conj C (conj (off_all _) D)))).
Qed.
(** eight days and the leap second of the end of 2016 *)
Theorem c90_count a n : epochs_between a (a + 8 + 1 / 86400) n <-> Z.of_nat n = 23041%Z.
Proof.
  unfold epochs_between, half_minute. rewrite INR_IZR_INZ. split.
  - intros (H & [-> | G]); [cbn in H; lra|]. assert (A : (23040 < Z.of_nat n)%Z) by (apply lt_IZR; lra). assert (B : (Z.of_nat n < 23042)%Z) by (apply lt_IZR; lra). lia.
  - intros ->. split; [lra|right; lra].
Qed.
(** anything else *)
Theorem c90_refuses dat tt2ut1 fuel e : main dat tt2ut1 fuel None e = Ok (Exit 1, []) /\
  (forall s, length (mvec epoch s) <> 9%nat -> main dat tt2ut1 fuel (Some s) e = Abort).
Proof. split; [reflexivity|]. intros s H. unfold main. apply Nat.eqb_neq in H. rewrite H. reflexivity. Qed.

(** ** tabulated epochs *)
(** the pole is that of the table with the short period variations. UT1 and length of day lack the zonal tides, which the program
    takes off the table and never puts back *)
Theorem c90_nodes_partial dat tt2ut1 l tab x t p : sorted mjd l -> Forall2 without_zonal l tab -> printed dat tt2ut1 tab t p -> In x l -> mjd (rt epoch x) = mjd t -> exists u,
  let F := arguments_at (julian_date (mjd t)) in let g := sidereal_time (julian_date (mjd t)) (julian_date (mjd (tt2ut1 t u))) in
  u = dut epoch x - rdat epoch x + dat t - zonal_ut1 F * 1e-6 /\
  xp epoch (cor p) = xp epoch x + short_x F g /\ yp epoch (cor p) = yp epoch x + short_y F g /\
  dut epoch (cor p) = dut epoch x - rdat epoch x + dat t + short_ut1 F g - zonal_ut1 F * 1e-6 /\
  lod epoch (cor p) = lod epoch x + short_lod F g - zonal_lod F * 1e-6.
Proof. exact (node_any dat tt2ut1 l tab x t p). Qed.
(** in the days the program asks for, the first line it prints has UT1 wrong by more than 40 milliseconds *)
Theorem c90_ut1_refuted dat tt2ut1 s x l y e : sorted mjd (mvec epoch s) -> ready s -> length (mvec epoch s) = 9%nat -> mvec epoch s = x :: l -> nth_error (mvec epoch s) 8 = Some y ->
  57750 <= mjd (rt epoch x) <= 57760 ->
  exists p out u, (forall fuel, (length (p :: out) <= fuel)%nat -> main dat tt2ut1 fuel (Some s) e = Ok (Exit 0, p :: out)) /\ rt epoch (cor p) = rt epoch x /\
    let jd := julian_date (mjd (rt epoch x)) in
    dut epoch (cor p) - (dut epoch x - rdat epoch x + dat (rt epoch x) + short_ut1 (arguments_at jd) (sidereal_time jd (julian_date (mjd (tt2ut1 (rt epoch x) u))))) >= 0.04.
Proof.
  intros S Rd L E N H. destruct (main_ok dat tt2ut1 s x l y e S Rd L E N) as (out & A & B & _ & _ & D).
  assert (XY : mjd (rt epoch x) < mjd (rt epoch y)). { rewrite E in S, N. destruct S as (S & _). cbn [nth_error] in N. rewrite Forall_forall in S. apply S, (nth_error_In _ 7), N. }
  destruct out as [|p out]; [destruct A as (A & _); cbn in A; lra|]. specialize (D p eq_refl). assert (R : rt epoch (cor p) = rt epoch x) by (destruct D as (? & ? & ? & ? & ? & D); apply D).
  destruct (node_any dat tt2ut1 (mvec epoch s) _ x (rt epoch x) p S (off_all _) D ltac:(rewrite E; left; reflexivity) eq_refl) as (u & K). exists p, out, u. split; [exact B|]. split; [exact R|]. cbv zeta in *. destruct K as (_ & _ & _ & -> & _).
  pose proof (zonal_days _ H) as Z. revert Z. generalize (zonal_ut1 (arguments_at (julian_date (mjd (rt epoch x))))). intros z Z.
  match goal with |- context [short_ut1 ?f ?g] => generalize (short_ut1 f g); intros v end. lra.
Qed.
(** there are such series: midnights UTC from 28 December 2016 on *)
Definition example_dat (k : Z) : R := if (k <? 4)%Z then 36 else 37.
Definition example_record (k : Z) : rec epoch := mkR epoch (mkT (57750 + k) ((32.184 + example_dat k) / 86400)) 0 0 0 0 0 0 (example_dat k) 0 0.
Definition example_series : EopModel.series epoch := mkSer epoch (map example_record [0; 1; 2; 3; 4; 5; 6; 7; 8]%Z) (Some 9%nat).
Example c90_nonvacuous : sorted mjd (mvec epoch example_series) /\ ready example_series /\ length (mvec epoch example_series) = 9%nat /\
  nth_error (mvec epoch example_series) 8 = Some (example_record 8) /\ 57750 <= mjd (rt epoch (example_record 0)) <= 57760 /\
  mjd (rt epoch (example_record 8)) = mjd (rt epoch (example_record 0)) + 8 + 1 / 86400.
Proof.
  refine (conj _ (conj _ (conj eq_refl (conj eq_refl (conj _ _))))).
  - cbn. repeat split; repeat constructor; unfold mjd, example_dat; cbn; lra.
  - exists 9%nat. split; [reflexivity|cbn; lia].
  - unfold mjd, example_dat. cbn. lra.
  - unfold mjd, example_dat. cbn. lra.
Qed.
Print Assumptions c90_run.
Print Assumptions c90_count.
Print Assumptions c90_refuses.
Print Assumptions c90_nodes_partial.
Print Assumptions c90_ut1_refuted.
