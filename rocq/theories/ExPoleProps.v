From Coq Require Import Ascii String Reals ZArith List Bool Lia Lra.
From Verif Require Import Base CString FromChars IcgemSpec AtlasSpec GridModel GridSpec FundModel EopModel EopSpec EopProofs EopProps PoleModel PoleSpec SiteModel SiteSpec SiteProps ExEopModel ExEopSpec ExEopProofs ExEopProps ExPoleModel ExPoleSpec ExPoleProofs.
Import ListNotations.
Open Scope R_scope.

(** ** C91: the example program for the pole tides *)
(** coefficients found, up to six sites, a table in order that begins before the start: a block of lines for every half minute up to
    the end asked for or the last record; 0 is returned exactly if the end has been reached, otherwise 1 *)
Theorem c91_run leap years lvlh sdbl Re GM Omega G ge sta file coef start fin s x l y e : ge <> 0 -> GM <> 0 ->
  site_coeffs sdbl file sta = Ok (coef, 0%Z) -> length coef = length sta -> (length sta <= 6)%nat ->
  sorted mjd (mvec epoch s) -> ready s -> mvec epoch s = x :: l -> nth_error (mvec epoch s) (length (mvec epoch s) - 1) = Some y -> mjd (rt epoch x) <= mjd start ->
  exists blocks code, epochs_between (mjd start) (Rmin (mjd fin) (mjd (rt epoch y))) (length blocks) /\
    (forall fuel, (length blocks < fuel)%nat -> main leap years lvlh sdbl Re GM Omega G ge fuel sta file start fin (Some s) e = Ok (Exit code, concat blocks)) /\
    (code = 0 \/ code = 1)%Z /\ (code = 0%Z <-> mjd fin <= mjd start + INR (length blocks) * half_minute) /\
    (forall k o, nth_error blocks k = Some o -> exists t px py, mjd t = mjd start + INR k * half_minute /\ pole_at leap (mvec epoch s) t px py /\
      lines_at years lvlh Re GM Omega G ge t px py sta coef beacons o).
Proof.
  intros H1 H2 EC L1 L2 S Rd E N X. destruct (count_exists (mjd start) (Rmin (mjd fin) (mjd (rt epoch y)))) as (n & Hn).
  destruct (loop_run leap years lvlh Re GM Omega G ge H1 H2 (mvec epoch s) x l y fin e sta coef S E N ltac:(lia) L2 n s start eq_refl Rd X Hn) as (outs & code & O1 & O2 & O3 & O4 & O5).
  exists outs, code. rewrite O2. split; [exact Hn|]. split. { intros fuel F. unfold main. rewrite EC. cbn [bind Z.eqb negb]. apply O1. exact F. }
  split; [exact O4|]. split; [exact O5|]. intros k o H. destruct (O3 k o H) as (t & Et & px & py & P & Ls). exists t, px, py. exact (conj Et (conj P Ls)).
Qed.
(** ten days *)
Theorem c91_count a n : epochs_between a (a + 10) n <-> Z.of_nat n = 28800%Z.
Proof.
  unfold epochs_between, half_minute. rewrite INR_IZR_INZ. split.
  - intros (H & [-> | K]); [cbn in H; lra|]. assert (A : (28799 < Z.of_nat n)%Z) by (apply lt_IZR; lra). assert (B : (Z.of_nat n < 28801)%Z) by (apply lt_IZR; lra). lia.
  - intros ->. split; [lra|right; lra].
Qed.
(** a table that begins after the start: nothing is printed *)
Theorem c91_early leap years lvlh sdbl Re GM Omega G ge sta file coef start fin s x l e fuel : site_coeffs sdbl file sta = Ok (coef, 0%Z) ->
  sorted mjd (mvec epoch s) -> ready s -> mvec epoch s = x :: l -> mjd start < mjd (rt epoch x) -> mjd start < mjd fin ->
  main leap years lvlh sdbl Re GM Omega G ge (Datatypes.S fuel) sta file start fin (Some s) e = Ok (Exit 1, []).
Proof.
  intros EC S Rd E X F. unfold main. rewrite EC. cbn [bind Z.eqb negb ExPoleModel.loop]. rewrite (proj2 (earlier_ok start fin) F).
  assert (C : cut mjd (mvec epoch s) start [] (mvec epoch s)). { split; [reflexivity|]. split; [constructor|]. rewrite E in S |- *. destruct S as (S & _). constructor; [exact X|]. eapply Forall_impl; [|exact S]. intros r H. cbn beta in H. lra. }
  destruct (pass_early leap s start e _ S Rd C ltac:(rewrite E; discriminate)) as (r & s' & ->). reflexivity.
Qed.
(** an empty table is undefined behaviour; failures of the two readers end the program *)
Theorem c91_readers leap years lvlh sdbl Re GM Omega G ge sta file start fin e fuel :
  (forall coef parsed, (exists c, c <> 0%Z /\ site_coeffs sdbl file sta = Ok (coef, c)) -> main leap years lvlh sdbl Re GM Omega G ge fuel sta file start fin parsed e = Ok (Exit 1, [])) /\
  (forall coef, site_coeffs sdbl file sta = Ok (coef, 0%Z) -> main leap years lvlh sdbl Re GM Omega G ge fuel sta file start fin None e = Ok (Exit 1, [])).
Proof.
  split; [intros coef parsed (c & H & EC)|intros coef EC]; unfold main; rewrite EC; cbn [bind]; [|reflexivity]. apply Z.eqb_neq in H. rewrite H. reflexivity.
Qed.
Theorem c91_empty_refuted leap years lvlh sdbl Re GM Omega G ge sta file coef start fin e fuel : site_coeffs sdbl file sta = Ok (coef, 0%Z) -> mjd start < mjd fin ->
  main leap years lvlh sdbl Re GM Omega G ge (Datatypes.S fuel) sta file start fin (Some (empty epoch)) e = UB.
Proof.
  intros EC F. unfold main. rewrite EC. cbn [bind Z.eqb negb ExPoleModel.loop]. rewrite (proj2 (earlier_ok start fin) F), c14_empty_refuted by lia. reflexivity.
Qed.
(** the loading printed for a site is that of the opposite side of the Earth: the coefficients come from a cell that does not contain
    the longitude of the site *)
Theorem c91_opposite_refuted leap years lvlh sdbl Re GM Omega G ge file g val sta cells start fin s x l y e : ge <> 0 -> GM <> 0 ->
  word_scanner sdbl -> desai_file sdbl file g val -> (2 <= ny g)%Z -> dx g <= 180 ->
  Forall2 (fun s c => inner g (fst c) (snd c) /\ in_cell g (fst c) (snd c) (px s) (py s)) sta cells -> (length sta <= 6)%nat ->
  sorted mjd (mvec epoch s) -> ready s -> mvec epoch s = x :: l -> nth_error (mvec epoch s) (length (mvec epoch s) - 1) = Some y -> mjd (rt epoch x) <= mjd start ->
  exists blocks code, (forall fuel, (length blocks < fuel)%nat -> main leap years lvlh sdbl Re GM Omega G ge fuel sta (Some file) start fin (Some s) e = Ok (Exit code, concat blocks)) /\
    forall k o j p, nth_error blocks k = Some o -> nth_error o j = Some p -> exists c i i' xp yp, nth_error sta j = Some c /\ nth_error cells j = Some (i, i') /\
      oocean p = ocean_shift (years (otime p)) xp yp (bilinear6 g val i i' (px c) (py c)) (lvlh c) Re GM Omega G ge /\
      forall m, ~ in_cell g i i' (deg (slon c) + 360 * IZR m) (deg (slat c)).
Proof.
  intros H1 H2 W D NY DX F L6 S Rd E N X. destruct (c34_inner_partial sdbl W file g val D sta cells NY F) as (r & EC & FR).
  assert (LC : length cells = length sta) by (clear -F; induction F; cbn; congruence).
  assert (LR : length r = length sta). { assert (Q : length r = length (List.combine sta cells)) by (clear -FR; induction FR; cbn; congruence). rewrite Q, combine_length. lia. }
  destruct (c91_run leap years lvlh sdbl Re GM Omega G ge sta (Some file) r start fin s x l y e H1 H2 EC LR L6 S Rd E N X) as (blocks & code & _ & B & _ & _ & K).
  exists blocks, code. split; [exact B|]. intros k o j p Hk Hj. destruct (K k o Hk) as (t & xx & yy & _ & _ & (_ & Ls)). destruct (Ls j p Hj) as (c & d & n & Nc & Nd & _ & ->). cbn [oocean otime].
  destruct (nth_error cells j) as [(i, i')|] eqn:Ecell. 2: { apply nth_error_None in Ecell. assert (j < length sta)%nat by (apply nth_error_Some; rewrite Nc; discriminate). lia. }
  exists c, i, i', xx, yy. split; [exact Nc|]. split; [reflexivity|].
  assert (V : d = bilinear6 g val i i' (px c) (py c) /\ inner g i i' /\ in_cell g i i' (px c) (py c)).
  { clear -FR F Nc Nd Ecell. revert cells r F FR j Nc Nd Ecell. induction sta as [|a sta IH]; intros [|b cells] r F FR [|j] Nc Nd Ec; try discriminate; inversion F; subst.
    - cbn in Nc, Ec. injection Nc as <-. injection Ec as ->. cbn [List.combine] in FR. inversion FR; subst. cbn in Nd. injection Nd as <-. cbn [fst snd] in *. tauto.
    - cbn [List.combine] in FR. inversion FR; subst. eapply IH; eassumption. }
  destruct V as (-> & I & C). split; [reflexivity|]. exact (proj2 (c34_longitude_refuted sdbl W file g val D c i i' NY DX I C)).
Qed.
(** a site, the small file of C34 and the series of C90; ten days are asked for, 23041 epochs are covered *)
Example c91_nonvacuous : let s := mkSite (- (PI / 3)) (- (PI / 9)) in let d := rt epoch (example_record 0) in
  word_scanner scan_dbl /\ desai_file scan_dbl exfile exg exval /\ (2 <= ny exg)%Z /\ dx exg <= 180 /\ (inner exg 0 0 /\ in_cell exg 0 0 (px s) (py s)) /\
  site_coeffs scan_dbl (Some exfile) [s] = Ok ([mkDs 2 1 2 3 4 5], 0%Z) /\
  sorted mjd (mvec epoch example_series) /\ ready example_series /\ nth_error (mvec epoch example_series) 8 = Some (example_record 8) /\
  epochs_between (mjd d) (Rmin (mjd d + 10) (mjd (rt epoch (example_record 8)))) (Z.to_nat 23041).
Proof.
  intros s d. destruct c34_nonvacuous as (A1 & A2 & A3 & A4 & _ & _ & A7 & A8). destruct c90_nonvacuous as (B1 & B2 & _ & B4 & _ & B6).
  refine (conj A1 (conj A2 (conj A3 (conj A7 (conj A4 (conj A8 (conj B1 (conj B2 (conj B4 _))))))))).
  unfold d. rewrite B6, Rmin_right by lra. apply c90_count. rewrite Z2Nat.id by lia. reflexivity.
Qed.
Print Assumptions c91_run.
Print Assumptions c91_count.
Print Assumptions c91_early.
Print Assumptions c91_readers.
Print Assumptions c91_empty_refuted.
Print Assumptions c91_opposite_refuted.
