(** C50: solid Earth tide coefficients. *)
From Coq Require Import Reals ZArith List Bool Lia Lra.
From Verif Require Import Base MatrixModel DoodsonModel DoodsonArgModel FundModel FundSpec TideModel TideSpec AlfSpec SolidModel Vec SolidSpec SolidProofs SolidProofs2.
Import ListNotations.
Open Scope R_scope.

(** a new object, any earlier evaluations, then one more: both matrices hold the conventional coefficients at every degree and order up to 4 *)
Theorem c50_coefficients h GMe Re GMs GMm cs c pm ps : (forall c', In c' cs -> exists pm' ps', fits_call c' pm' ps') -> fits_call c pm ps ->
  exists h0 o h1 h2, solid_ctor h GMe Re GMs GMm = Ok (h0, o) /\ fold_res (run o) cs h0 = Ok h1 /\ run o h1 c = Ok h2 /\
    let want := fun n m => total anelastic Re (GMs / GMe) (GMm / GMe) ps pm (phase (cargs c) (julian_date (mjd (ctt c))) (julian_date (mjd (cut1 c)))) (Z.to_nat n) (Z.to_nat m) in
    shows h2 4 (mC (mcs o)) (fun n m => Some (deltaC (want n m))) /\ shows h2 4 (mS (mcs o)) (fun n m => Some (deltaS (want n m))).
Proof. exact (history_ok h GMe Re GMs GMm cs c pm ps). Qed.
(** nothing outside the two matrices changes *)
Theorem c50_only_own h o c pm ps : ready h o -> fits_call c pm ps -> exists h', run o h c = Ok h' /\ ready h' o /\ only_acc h (mcs o) h'.
Proof. intros H F. destruct (run_ok h o c pm ps H F) as (h' & E & R' & O & _). exists h'. auto. Qed.
(** zero below degree two, at (4, 3) and (4, 4), and all S of order zero *)
Theorem c50_zero Re ks km ps pm th n m : ((n < 2) \/ (n = 4 /\ 2 < m))%nat -> total anelastic Re ks km ps pm th n m = (0, 0).
Proof.
  intros H. unfold total. replace (step2 th n m) with (0, 0).
  - destruct H as [H|[-> H]]; [rewrite step1_low by exact H; unfold cadd; cbn; apply f_equal2; ring|].
    unfold step1, body. destruct (Nat.leb_spec m 2); [lia|]. unfold cadd. cbn. apply f_equal2; ring.
  - destruct H as [H|[-> H]]; [destruct n as [|[|n]]; [reflexivity|reflexivity|lia]|reflexivity].
Qed.
Theorem c50_zero_S Re ks km ps pm th n : deltaS (total anelastic Re ks km ps pm th n 0) = 0.
Proof. rewrite zero_S0, step1_S0. ring. Qed.

(** step 1: what each body adds, in the order of the arrays, for both sets of Love numbers *)
Theorem c50_step1 Re ks km moon sun pm ps dC dS : length dC = 12%nat -> length dS = 12%nat -> is_at moon pm -> is_at sun ps ->
  potential_step1 Re ks km moon sun dC dS =
  (map (fun x => deltaC (step1 anelastic Re ks km ps pm (fst x) (snd x))) slots, map (fun x => deltaS (step1 anelastic Re ks km ps pm (fst x) (snd x))) slots).
Proof. exact (step1_ok Re ks km moon sun pm ps dC dS). Qed.
Theorem c50_elastic Re k v p i dC dS : length dC = 12%nat -> length dS = 12%nat -> is_at v p -> (i < 12)%nat ->
  let x := nth i slots (0, 0)%nat in
  nth i (fst (elastic_tb Re k v dC dS)) 0 = nth i dC 0 + deltaC (body elastic Re k p (fst x) (snd x)) /\
  nth i (snd (elastic_tb Re k v dC dS)) 0 = nth i dS 0 + deltaS (body elastic Re k p (fst x) (snd x)).
Proof. exact (elastic_nth Re k v p i dC dS). Qed.
(** step 2 *)
Theorem c50_step2 F tt ut1 : let th := phase F (julian_date (mjd tt)) (julian_date (mjd ut1)) in let r := potential_step2 tt ut1 F in
  oC20 r = deltaC (step2 th 2 0) /\ oC21 r = deltaC (step2 th 2 1) /\ oS21 r = deltaS (step2 th 2 1) /\ oC22 r = deltaC (step2 th 2 2) /\ oS22 r = deltaS (step2 th 2 2).
Proof. exact (step2_ok F tt ut1). Qed.
(** the table: every line carries the multipliers of its Doodson number, in the tables of the conventions *)
Theorem c50_table : Step2 = map wave_of (table_a ++ table_b ++ table_c) /\ length table_a = 48%nat /\ length table_b = 21%nat /\ length table_c = 2%nat /\
  NoDup (map fst (table_a ++ table_b ++ table_c)).
Proof. exact table_lines. Qed.

(** closed forms *)
Theorem c50_legendre l : [P20 (sin l); P21 (sin l) (cos l); P22 (cos l); P30 (sin l); P31 (sin l) (cos l); P32 (sin l) (cos l); P33 (cos l)] =
  map (fun x => Pbar (fst x) (snd x) l) [(2, 0); (2, 1); (2, 2); (3, 0); (3, 1); (3, 2); (3, 3)]%nat.
Proof. cbn [map fst snd]. rewrite pbar20, pbar21, pbar22, pbar30, pbar31, pbar32, pbar33. reflexivity. Qed.
Theorem c50_multiple_angles x : c2l (cos x) (sin x) = cos (2 * x) /\ s2l (cos x) (sin x) = sin (2 * x) /\ c3l (cos x) = cos (3 * x) /\ s3l (sin x) = sin (3 * x).
Proof. rewrite cos_2l, sin_2l, cos_3l, sin_3l. auto. Qed.
Theorem c50_spherical v : v <> v0 -> let s := cartesian2spherical v in is_at v (mkPl (sr s) (slat s) (slon s)).
Proof. intros H. exact (spherical_at v H). Qed.
(** the coordinates of a body may be given in any way *)
Theorem c50_direction K Re k v p q n m : is_at v p -> is_at v q -> (m <= n)%nat -> body K Re k p n m = body K Re k q n m.
Proof. intros P Q. apply body_dir, (same_direction v p q P Q). Qed.
(** normalisation: with one Love number for a degree the coefficients of a body give k (GM_b/GM) (Re/r)^(n+1) P_n(cos psi) *)
Theorem c50_potential2 (k0 Re k : R) (kp : nat -> R) p q : let K := mkLove (fun _ _ => (k0, 0)) kp in
  cdot (deltaC (body K Re k p 2 0), deltaS (body K Re k p 2 0)) (harm 2 0 q) + cdot (deltaC (body K Re k p 2 1), deltaS (body K Re k p 2 1)) (harm 2 1 q) +
  cdot (deltaC (body K Re k p 2 2), deltaS (body K Re k p 2 2)) (harm 2 2 q) = k0 * k * (Re / radius p) ^ 3 * legendre 2 0 (cosangle p q).
Proof. exact (potential2 k0 Re k kp p q). Qed.
Theorem c50_potential3 (k0 Re k : R) (kp : nat -> R) p q : let K := mkLove (fun _ _ => (k0, 0)) kp in
  cdot (deltaC (body K Re k p 3 0), deltaS (body K Re k p 3 0)) (harm 3 0 q) + cdot (deltaC (body K Re k p 3 1), deltaS (body K Re k p 3 1)) (harm 3 1 q) +
  cdot (deltaC (body K Re k p 3 2), deltaS (body K Re k p 3 2)) (harm 3 2 q) + cdot (deltaC (body K Re k p 3 3), deltaS (body K Re k p 3 3)) (harm 3 3 q) =
  k0 * k * (Re / radius p) ^ 4 * legendre 3 0 (cosangle p q).
Proof. exact (potential3 k0 Re k kp p q). Qed.

(** Moon above Greenwich, Sun above the pole *)
Definition ex_call : call := mkCall (repeat 7 12) (repeat 8 12) (mkT 60000 0.25) (mkT 60000 0.2) (mk3 384400000 0 0) (mk3 0 0 149600000000) (mkDel 1 2 3 4 5).
Example c50_nonvacuous : fits_call ex_call (mkPl 384400000 0 0) (mkPl 149600000000 (PI / 2) 0).
Proof.
  split; [reflexivity|]. split; [reflexivity|]. split; (split; [cbn; lra|]); unfold position, ex_call; cbn; rewrite ?cos_0, ?sin_0, ?cos_PI2, ?sin_PI2; apply v3_eq; cbn; ring.
Qed.
Example c50_nonzero : deltaC (body anelastic 6378136.6 1 (mkPl 6378136.6 0 0) 2 2) <> 0.
Proof.
  unfold deltaC, body, cscale, cmul, cis. cbn [fst snd kk anelastic radius latitude longitude Nat.add Nat.mul]. rewrite inr2, inr5, pbar22. unfold P22. rewrite cos_0, Rmult_0_r, Ropp_0, cos_0, sin_0.
  assert (0 < sqrt (5 / 12)) by (apply sqrt_lt_R0; lra). replace (6378136.6 / 6378136.6) with 1 by (symmetry; apply Rinv_r; lra). lra.
Qed.
Print Assumptions c50_coefficients.
Print Assumptions c50_only_own.
Print Assumptions c50_zero.
Print Assumptions c50_zero_S.
Print Assumptions c50_step1.
Print Assumptions c50_elastic.
Print Assumptions c50_step2.
Print Assumptions c50_table.
Print Assumptions c50_legendre.
Print Assumptions c50_multiple_angles.
Print Assumptions c50_spherical.
Print Assumptions c50_direction.
Print Assumptions c50_potential2.
Print Assumptions c50_potential3.
