(** Property theorems for C72: rounding errors of the tidal variations of the Earth rotation parameters. *)
From Coq Require Import Reals ZArith List Bool Lia Lra.
From Flocq Require Import Core.Core IEEE754.BinarySingleNaN.
From Verif Require Import Angles PiBound Poly KahanModel FundModel FundSpec FundProofs DoodsonModel DoodsonArgModel DoodsonArgSpec SolidSpec EtvModel EtvSpec EtvProofs EtvProofs2 FlModel FlProofs FlFloatModel FlFloatProofs FlCipModel FlCipProofs FlCipProofs2 FlCip64Model FlEraModel FlEraProofs FlEtvModel FlEtvProofs.
From Verif Require CipSpec FlCip64Proofs FlCipProps FlEraProps EtvProps.
Import ListNotations.
Open Scope R_scope.

(** ** the expressions are the code's: evaluated exactly they are the functions of C65 *)
Theorem c72_expressions tab F g D B : length D = 6%nat ->
  (let v := delaunay2doodson F g in D = [vtau v; vs v; vh v; vp v; vn v; vps v]) -> B = map (fun w => argument (dn w) (delaunay2doodson F g)) tab ->
  Forall2 (fun w b => b = anp (eval (lenv D) (argumente (dn w)))) tab B /\
  map (eval (lenv B)) (map (fun c => seriese c 0 tab (Int 0)) [cx; cy; cu; cl]) = [dxp (deop tab F g); dyp (deop tab F g); dut1 (deop tab F g); dlod (deop tab F g)].
Proof.
  cbv zeta. intros _ -> ->. split.
  - induction tab as [|w tab IH]; constructor; [reflexivity|exact IH].
  - apply deop_values. induction tab as [|w tab IH]; constructor; [rewrite DoodsonArgProofs.argument_iers; apply anp_eqm|exact IH].
Qed.
Theorem c72_doodson F g : let v := delaunay2doodson F g in
  map anp (map (eval (lenv [el F; elp F; ef F; ed F; eom F])) doodsone) = [vs v; vh v; vp v; vn v; vps v] /\ anp (eval (lenv [g; PI; vs v]) taue) = vtau v.
Proof. cbv zeta. split; reflexivity. Qed.
Theorem c72_zonal_expressions F : let B := map (fun w => ksi w F) Table81 in
  Forall2 (fun w b => b = anp (eval (lenv [el F; elp F; ef F; ed F; eom F]) (ksie w))) Table81 B /\
  eval (lenv B) zut1e = zut1 (deop_zonal_tide F) /\ eval (lenv B) zlode = zlod (deop_zonal_tide F) /\ eval (lenv B) zomegae = zomega (deop_zonal_tide F).
Proof.
  cbv zeta. split.
  - generalize Table81. intros t. induction t as [|w t IH]; constructor; [reflexivity|exact IH].
  - apply zonal_values. generalize Table81. intros t. induction t as [|w t IH]; constructor; [apply ksi_eqm|exact IH].
Qed.

(** ** whatever the roundings, within a century *)
(** what the library computes before: the 14 arguments and the sidereal time *)
Definition prepared (T : times) (F : list R) (gm : R) : Prop := arguments_run (td2pi T) (ttt T) F /\ gmst_run T gm.
Definition all_within (d : R) (r e : eop) : Prop := Rabs (dxp r - dxp e) <= d /\ Rabs (dyp r - dyp e) <= d /\ Rabs (dut1 r - dut1 e) <= d /\ Rabs (dlod r - dlod e) <= d.
Lemma within_le (i k : Z) d r e : IZR i / IZR k <= d ->
  Rabs (dxp r - dxp e) <= IZR i / IZR k /\ Rabs (dyp r - dyp e) <= IZR i / IZR k /\ Rabs (dut1 r - dut1 e) <= IZR i / IZR k /\ Rabs (dlod r - dlod e) <= IZR i / IZR k -> all_within d r e.
Proof. unfold all_within. intros H (A & B & C & D). repeat split; lra. Qed.
Section Dates.
  Variables (tt ut1 : epoch) (T : times).
  Hypotheses (HC : in_century tt ut1) (HO : handed_out tt ut1 T).
  Let Fe := arguments_at (julian_date (mjd tt)).
  Let ge := sidereal_time (julian_date (mjd tt)) (julian_date (mjd ut1)).
  Lemma fargs_ready F : arguments_run (td2pi T) (ttt T) F -> exists G, fargs_close (firstn 5 F) G /\ same_angles (delaunay_of G) Fe.
  Proof.
    intros RF. destruct HC as (_ & Ht & _). destruct HO as (_ & _ & A2 & A3 & _). cbn [exact_times td2pi ttt] in A2, A3.
    destruct (arguments_error (td2pi T) (ttt T) (jcenturies_sinceJ2000 tt) F A3 Ht A2 RF) as (LF & G & LG & CG & SG).
    exists (firstn 5 G). split.
    - split; [|rewrite firstn_length, LG; reflexivity]. apply firstn_close, CG.
    - replace (jcenturies_sinceJ2000 tt) with (centuries (julian_date (mjd tt))) in SG by (unfold centuries, julian_date, jcenturies_sinceJ2000; lra).
      unfold CipSpec.same_angles, CipSpec.iers_arguments in SG. unfold Fe, arguments_at. revert SG. generalize (centuries (julian_date (mjd tt))). intros c SG. unfold lunisolar in *. cbn [map app] in SG.
      do 5 (let E := fresh "E" in let H := fresh "H" in inversion SG as [|? ? ? ? E H]; subst; clear SG; rename H into SG).
      cbn [firstn]. unfold same_angles, delaunay_of, from_array. cbn [map nth el elp ef ed eom]. repeat split; assumption.
  Qed.
  Lemma gmst_ready gm : gmst_run T gm -> exists g, eqm g ge /\ Rabs g <= 8 /\ Rabs (gm - g) <= / IZR (10 ^ 12).
  Proof.
    intros Rg. destruct (gmst_error tt ut1 T HC HO gm Rg) as (a & E & D). exists a. split; [exact E|]. assert (G7 : Rabs gm <= 7) by (destruct Rg as (? & ? & ? & _ & _ & _ & A); apply A).
    change (10 ^ 12)%Z with 1000000000000%Z. apply Rabs_le_inv in D, G7. split; apply Rabs_le; lra.
  Qed.
  Lemma pi_ready : Rabs (tdpi T - PI) <= / 2 ^ 50.
  Proof. destruct HO as (_ & _ & _ & _ & A & _). exact A. Qed.
  Lemma same_at tab F' g' : same_angles F' Fe -> eqm g' ge -> deop tab F' g' = deop tab Fe ge.
  Proof. apply deop_same. Qed.
  (** microarcseconds and microseconds *)
  Theorem c72_libration F gm r : prepared T F gm -> deop_run Table5NoLongTides F gm (tdpi T) r ->
    all_within 2.5e-8 r (mkEop (series (fun a => a) libration_pole Fe ge) (series behind libration_pole Fe ge) (series fst libration_ut1 Fe ge) (series snd libration_ut1 Fe ge)).
  Proof.
    intros (RF & Rg) R. destruct (fargs_ready F RF) as (G & CG & SG), (gmst_ready gm Rg) as (g & Eg & G8 & Dg).
    pose proof (deop_error F G gm g (tdpi T) CG G8 Dg pi_ready Table5NoLongTides 100 25 (10 ^ 9) r ltac:(lia) args5 columns5 R) as E. apply within_le with (d := 2.5e-8) in E; [|change (10 ^ 9)%Z with 1000000000%Z; lra].
    rewrite (same_at _ _ _ SG Eg) in E. rewrite <- (libration_ok Fe ge). exact E.
  Qed.
  Theorem c72_ocean F gm r : prepared T F gm -> deop_run Table8 F gm (tdpi T) r ->
    all_within 5.6e-7 r (mkEop (series px ocean Fe ge) (series py ocean Fe ge) (series pu ocean Fe ge) (series pl ocean Fe ge)).
  Proof.
    intros (RF & Rg) R. destruct (fargs_ready F RF) as (G & CG & SG), (gmst_ready gm Rg) as (g & Eg & G8 & Dg).
    pose proof (deop_error F G gm g (tdpi T) CG G8 Dg pi_ready Table8 1500 56 (10 ^ 8) r ltac:(lia) args8 columns8 R) as E. apply within_le with (d := 5.6e-7) in E; [|change (10 ^ 8)%Z with 100000000%Z; lra].
    rewrite (same_at _ _ _ SG Eg) in E. rewrite <- (ocean_ok Fe ge). exact E.
  Qed.
  (** microseconds, microseconds and 10^-14 rad/s *)
  Theorem c72_zonal F r : arguments_run (td2pi T) (ttt T) F -> zonal_run F r -> Rabs (zut1 r - zonal_ut1 Fe) <= 1.5e-5 /\ Rabs (zlod r - zonal_lod Fe) <= 1.2e-7 /\ Rabs (zomega r - zonal_omega Fe) <= 1e-8.
  Proof.
    intros RF R. destruct (fargs_ready F RF) as (G & CG & SG). pose proof (zonal_error F G CG r R) as E. cbv zeta in E. rewrite (zonal_same _ _ SG), (zonal_ok Fe) in E. cbn [zut1 zlod zomega] in E. exact E.
  Qed.
  (** sum of the variations: nothing a millimetre or a nanosecond would show; 1 microarcsecond is 3.1e-5 m on the equator, 1 microsecond of UT1 4.65e-4 m *)
  Theorem c72_ground F gm rl ro rz : prepared T F gm -> deop_run Table5NoLongTides F gm (tdpi T) rl -> deop_run Table8 F gm (tdpi T) ro -> zonal_run F rz ->
    let x := series (fun a => a) libration_pole Fe ge + series px ocean Fe ge in
    let t := series fst libration_ut1 Fe ge + series pu ocean Fe ge + zonal_ut1 Fe in
    3.1e-5 * Rabs (dxp rl + dxp ro - x) <= 1e-10 /\ 4.65e-4 * Rabs (dut1 rl + dut1 ro + zut1 rz - t) <= 1e-8.
  Proof.
    intros P Rl Ro Rz x t. destruct (c72_libration F gm rl P Rl) as (L1 & _ & L3 & _). destruct (c72_ocean F gm ro P Ro) as (O1 & _ & O3 & _). destruct (c72_zonal F rz (proj1 P) Rz) as (Z1 & _). cbn [dxp dut1] in *.
    assert (X : Rabs (dxp rl + dxp ro - x) <= 6e-7) by (unfold x; apply Rabs_le_inv in L1, O1; apply Rabs_le; lra).
    assert (Y : Rabs (dut1 rl + dut1 ro + zut1 rz - t) <= 1.6e-5) by (unfold t; apply Rabs_le_inv in L3, O3, Z1; apply Rabs_le; lra). split; lra.
  Qed.
End Dates.
(** two builds, and two ways of handing out the epoch, agree *)
Theorem c72_builds tt ut1 T T' F F' gm gm' r r' : in_century tt ut1 -> handed_out tt ut1 T -> handed_out tt ut1 T' -> prepared T F gm -> prepared T' F' gm' ->
  deop_run Table8 F gm (tdpi T) r -> deop_run Table8 F' gm' (tdpi T') r' -> all_within 1.2e-6 r r'.
Proof.
  intros HC H H' P P' R R'. destruct (c72_ocean tt ut1 T HC H F gm r P R) as (A1 & A2 & A3 & A4). destruct (c72_ocean tt ut1 T' HC H' F' gm' r' P' R') as (B1 & B2 & B3 & B4). cbn [dxp dyp dut1 dlod] in *.
  apply Rabs_le_inv in A1, A2, A3, A4, B1, B2, B3, B4. repeat split; apply Rabs_le; lra.
Qed.

(** ** in binary64 *)
Section Library.
  Variables dsin dcos dsec danp : double -> double.
  Variable dfmod : double -> double -> double.
  Variables (f tu t d2pi dpi sec ut : double) (tt ut1 : epoch).
  Let T := times64 f tu t d2pi dpi sec ut.
  Let F := arguments64 dsin dcos dsec dfmod d2pi t.
  Let gm := gmst64 dsin dcos dsec danp (env64e f tu t d2pi dpi sec ut).
  Let Fe := arguments_at (julian_date (mjd tt)).
  Let ge := sidereal_time (julian_date (mjd tt)) (julian_date (mjd ut1)).
  Theorem c72_binary64 : accurate dsin sin -> accurate dcos cos -> accurate_sec dsec -> accurate_anp danp -> FlCip64Proofs.exact_fmod dfmod ->
    in_century tt ut1 -> Forall fin [f; tu; t; d2pi; dpi; sec; ut] -> handed_out tt ut1 T ->
    let l := deop64 dsin dcos dsec danp Table5NoLongTides F gm dpi in let o := deop64 dsin dcos dsec danp Table8 F gm dpi in let z := zonal64 dsin dcos dsec danp F in
    (eop_fin l /\ all_within 2.5e-8 (eop_vals l) (mkEop (series (fun a => a) libration_pole Fe ge) (series behind libration_pole Fe ge) (series fst libration_ut1 Fe ge) (series snd libration_ut1 Fe ge))) /\
    (eop_fin o /\ all_within 5.6e-7 (eop_vals o) (mkEop (series px ocean Fe ge) (series py ocean Fe ge) (series pu ocean Fe ge) (series pl ocean Fe ge))) /\
    zeop_fin z /\ Rabs (B2R (bzut1 z) - zonal_ut1 Fe) <= 1.5e-5 /\ Rabs (B2R (bzlod z) - zonal_lod Fe) <= 1.2e-7 /\ Rabs (B2R (bzomega z) - zonal_omega Fe) <= 1e-8.
  Proof.
    intros As Ac Ax An Am HC FF HO. destruct (gmst64_run dsin dcos dsec danp As Ac Ax An f tu t d2pi dpi sec ut tt ut1 HC HO FF) as [Fg Rg].
    assert (Ft : fin t /\ fin d2pi /\ fin dpi) by (repeat match goal with H : Forall fin (_ :: _) |- _ => inversion H; subst; clear H end; repeat split; assumption). destruct Ft as (Ft & Fd & Fp).
    destruct HC as (HC0 & HC1 & HC2). pose proof HO as (_ & _ & A2 & A3 & _). cbn [exact_times td2pi ttt T times64] in A2, A3.
    destruct (FlCip64Proofs.arguments64_run dsin dcos dsec dfmod d2pi As Ac Ax Am Fd A3 t (jcenturies_sinceJ2000 tt) Ft HC1 A2) as [FA RA]. fold F in FA, RA.
    assert (HC : in_century tt ut1) by (repeat split; assumption || lra).
    destruct (fargs_ready tt ut1 T HC HO _ RA) as (G & CG & SG). destruct (gmst_ready tt ut1 T HC HO _ Rg) as (g & Eg & G8 & Dg). pose proof (pi_ready tt ut1 T HO) as Hp. cbn [T times64 tdpi] in Hp.
    assert (P : prepared T (map (fun x : double => B2R x) F) (B2R gm)) by (split; [exact RA|exact Rg]).
    destruct (deop64_run dsin dcos dsec danp As Ac Ax An F G gm dpi g FA Fg Fp CG G8 Dg Hp Table5NoLongTides 100 25 (10 ^ 9) args5 columns5) as [F1 R1].
    destruct (deop64_run dsin dcos dsec danp As Ac Ax An F G gm dpi g FA Fg Fp CG G8 Dg Hp Table8 1500 56 (10 ^ 8) args8 columns8) as [F2 R2].
    destruct (zonal64_run dsin dcos dsec danp As Ac Ax An F G FA CG) as [F3 R3].
    cbv zeta. split; [split; [exact F1|exact (c72_libration tt ut1 T HC HO _ _ _ P R1)]|]. split; [split; [exact F2|exact (c72_ocean tt ut1 T HC HO _ _ _ P R2)]|].
    revert F3 R3. generalize (zonal64 dsin dcos dsec danp F). intros z F3 R3. split; [exact F3|]. exact (c72_zonal tt ut1 T HC HO _ _ RA R3).
  Qed.
End Library.
(** the functions assumed above exist *)
Theorem c72_library : accurate (FlCip64Proofs.lib_trig sin) sin /\ accurate (FlCip64Proofs.lib_trig cos) cos /\ accurate_sec (FlCip64Proofs.lib_trig sec2rad) /\
  accurate_anp (fmod_anp FlCip64Proofs.lib_fmod (of_real (2 * PI))) /\ FlCip64Proofs.exact_fmod FlCip64Proofs.lib_fmod.
Proof. destruct FlEraProps.c71_library as (A & B & C & _ & D). split; [exact A|]. split; [exact B|]. split; [exact C|]. split; [exact D|exact FlCip64Proofs.lib_fmod_ok]. Qed.

(** a run exists: no rounding at all *)
Lemma reduced_exact E es : exists A, Forall2 (reduced_run E) es A.
Proof.
  induction es as [|e es (A & IH)]; [exists []; constructor|]. set (p := eval E e). pose proof pi_bounds.
  assert (Q : reduced_run E e (fmod p (2 * PI))).
  { exists p. split; [apply FlCipProps.c70_exact_run|]. pose proof (fmod_bound p (2 * PI) ltac:(lra)). split; [apply Rabs_le; lra|]. exists (trunc (p / (2 * PI))). pose proof (trunc_abs (p / (2 * PI))) as TA.
    assert (Q : Rabs (p / (2 * PI)) <= Rabs p / 6). { unfold Rdiv. rewrite Rabs_mult. apply Rmult_le_compat_l; [apply Rabs_pos|]. rewrite Rabs_pos_eq by (apply Rlt_le, Rinv_0_lt_compat; lra). apply Rinv_le_contravar; lra. }
    split; [lra|]. unfold fmod. rewrite Rminus_diag_eq, Rabs_R0 by reflexivity. pose proof (Rabs_pos (IZR (trunc (p / (2 * PI))))). pose proof p50. nra. }
  exists (fmod p (2 * PI) :: A). constructor; assumption.
Qed.
Example c72_nonvacuous F gm dpi tab : (exists r, deop_run tab F gm dpi r) /\ exists r, zonal_run F r.
Proof.
  split.
  - destruct (reduced_exact (lenv (firstn 5 F)) doodsone) as (D & HD). assert (LD : exists s D', D = s :: D') by (inversion HD; eauto). destruct LD as (s & D' & ->).
    destruct (reduced_exact (lenv [gm; dpi; s]) [taue]) as (L & HL). inversion HL as [|? t0 ? ? Ht _]; subst.
    destruct (reduced_exact (lenv (t0 :: s :: D')) (map (fun w => argumente (dn w)) tab)) as (A & HA).
    exists (mkEop (eval (lenv A) (seriese cx 0 tab (Int 0))) (eval (lenv A) (seriese cy 0 tab (Int 0))) (eval (lenv A) (seriese cu 0 tab (Int 0))) (eval (lenv A) (seriese cl 0 tab (Int 0)))).
    exists (t0 :: s :: D'), A. split; [exists t0, s, D'; split; [reflexivity|]; split; [exact HD|exact Ht]|]. split; [exact HA|]. cbn [dxp dyp dut1 dlod]. repeat split; apply FlCipProps.c70_exact_run.
  - destruct (reduced_exact (lenv (firstn 5 F)) (map ksie Table81)) as (A & HA). exists (mkZeop (eval (lenv A) zut1e) (eval (lenv A) zlode) (eval (lenv A) zomegae)), A. split; [exact HA|]. cbn [zut1 zlod zomega]. repeat split; apply FlCipProps.c70_exact_run.
Qed.
Print Assumptions c72_expressions.
Print Assumptions c72_doodson.
Print Assumptions c72_zonal_expressions.
Print Assumptions c72_libration.
Print Assumptions c72_ocean.
Print Assumptions c72_zonal.
Print Assumptions c72_ground.
Print Assumptions c72_builds.
Print Assumptions c72_binary64.
Print Assumptions c72_library.
