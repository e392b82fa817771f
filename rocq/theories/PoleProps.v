(** Properties C31-C33: pole tides. *)
From Coq Require Import Ascii String Reals ZArith List Bool Lia Lra.
From Verif Require Import IcgemModel IcgemSpec IcgemLoop.
From Verif Require Import Base StorageModel StorageSpec MatrixModel MatrixSpec MatrixProofs CString FromChars TideModel TideSpec TideProofs TideProofs2 PoleModel PoleSpec PoleProofs PoleProofs2 PoleProofs3.
Import ListNotations.

(** * C31 pole tide formulas *)
Section C31.
Open Scope R_scope.
Theorem c31_wobble t xp yp : mcoeffs t xp yp = (m1 t xp, m2 t yp).
Proof. unfold mcoeffs, m1, m2, xs, ys. cbn. f_equal; lra. Qed.
(** (6.22) *)
Theorem c31_solid t xp yp : solid_coeffs t xp yp =
  (-1.333e-9 * (m1 t xp + 0.0115 * m2 t yp), -1.333e-9 * (m2 t yp - 0.0115 * m1 t xp)).
Proof. unfold solid_coeffs. rewrite c31_wobble. reflexivity. Qed.
(** (6.24) *)
Theorem c31_ocean t xp yp : ocean_coeffs21 t xp yp =
  (-2.1778e-10 * (m1 t xp - 0.01724 * m2 t yp), -1.7232e-10 * (m2 t yp - 0.03365 * m1 t xp)).
Proof. unfold ocean_coeffs21. rewrite c31_wobble. reflexivity. Qed.
(** linear: the change between two poles at one epoch depends on the difference of the poles only *)
Theorem c31_linear t xp yp dx dy :
  fst (solid_coeffs t (xp + dx) (yp + dy)) - fst (solid_coeffs t xp yp) = -1.333e-9 * (dx - 0.0115 * dy) /\
  snd (solid_coeffs t (xp + dx) (yp + dy)) - snd (solid_coeffs t xp yp) = -1.333e-9 * (- dy - 0.0115 * dx) /\
  fst (ocean_coeffs21 t (xp + dx) (yp + dy)) - fst (ocean_coeffs21 t xp yp) = -2.1778e-10 * (dx + 0.01724 * dy) /\
  snd (ocean_coeffs21 t (xp + dx) (yp + dy)) - snd (ocean_coeffs21 t xp yp) = -1.7232e-10 * (- dy - 0.03365 * dx).
Proof. rewrite !c31_solid, !c31_ocean. unfold m1, m2. cbn [fst snd]. repeat split; lra. Qed.
Theorem c31_zero t xp yp : (solid_coeffs t xp yp = (0, 0) <-> xp = xs t /\ yp = ys t) /\ (ocean_coeffs21 t xp yp = (0, 0) <-> xp = xs t /\ yp = ys t).
Proof.
  rewrite c31_solid, c31_ocean. unfold m1, m2. split; split.
  - intros H. injection H as H1 H2. split; lra.
  - intros (-> & ->). f_equal; lra.
  - intros H. injection H as H1 H2. split; lra.
  - intros (-> & ->). f_equal; lra.
Qed.
(** site displacement in metres (7.26), in the frame of the spherical unit vectors *)
Theorem c31_displacement t xp yp lat lon : let th := PI / 2 - lat in let a := m1 t xp in let b := m2 t yp in
  solid_deformation t xp yp lat lon =
    times 0.001 (addv (times (s_theta a b th lon) (e_theta th lon)) (addv (times (s_lambda a b th lon) (e_lambda lon)) (times (s_r a b th lon) (e_r th lon)))).
Proof.
  intros th a b. unfold solid_deformation. rewrite c31_wobble. fold th. cbn [fst snd]. fold a b.
  unfold s_theta, s_lambda, s_r, e_theta, e_lambda, e_r, addv, times, scalev, mulv. rewrite sin_2a, cos_2a_cos. f_equal; [f_equal|]; ring.
Qed.
Lemma frame t l : dotv (e_theta t l) (e_theta t l) = 1 /\ dotv (e_lambda l) (e_lambda l) = 1 /\ dotv (e_r t l) (e_r t l) = 1 /\
  dotv (e_theta t l) (e_lambda l) = 0 /\ dotv (e_theta t l) (e_r t l) = 0 /\ dotv (e_lambda l) (e_r t l) = 0.
Proof.
  unfold dotv, e_theta, e_lambda, e_r. pose proof (sin2_cos2 t) as T. pose proof (sin2_cos2 l) as L. unfold Rsqr in *.
  assert (T' : sin t * sin t = 1 - cos t * cos t) by lra. assert (L' : sin l * sin l = 1 - cos l * cos l) by lra.
  repeat split; ring_simplify; try (replace (sin l ^ 2) with (1 - cos l * cos l) by (rewrite <- L'; ring)); try (replace (sin t ^ 2) with (1 - cos t * cos t) by (rewrite <- T'; ring)); ring.
Qed.
(** components along the unit vectors *)
Theorem c31_components t xp yp lat lon : let th := PI / 2 - lat in let a := m1 t xp in let b := m2 t yp in let d := solid_deformation t xp yp lat lon in
  dotv d (e_theta th lon) = s_theta a b th lon / 1000 /\ dotv d (e_lambda lon) = s_lambda a b th lon / 1000 /\ dotv d (e_r th lon) = s_r a b th lon / 1000.
Proof.
  intros th a b d. unfold d. rewrite c31_displacement. fold th a b.
  set (p := s_theta a b th lon). set (q := s_lambda a b th lon). set (r := s_r a b th lon).
  destruct (frame th lon) as (F1 & F2 & F3 & F4 & F5 & F6).
  set (u := e_theta th lon) in *. set (v := e_lambda lon) in *. set (w := e_r th lon) in *. clearbody u v w p q r.
  destruct u as ((u1, u2), u3), v as ((v1, v2), v3), w as ((w1, w2), w3). unfold dotv, addv, times in *. split; [|split].
  - replace (p / 1000) with (0.001 * (p * (u1 * u1 + u2 * u2 + u3 * u3) + q * (u1 * v1 + u2 * v2 + u3 * v3) + r * (u1 * w1 + u2 * w2 + u3 * w3))) by (rewrite F1, F4, F5; lra). ring.
  - replace (q / 1000) with (0.001 * (p * (u1 * v1 + u2 * v2 + u3 * v3) + q * (v1 * v1 + v2 * v2 + v3 * v3) + r * (v1 * w1 + v2 * w2 + v3 * w3))) by (rewrite F2, F4, F6; lra). ring.
  - replace (r / 1000) with (0.001 * (p * (u1 * w1 + u2 * w2 + u3 * w3) + q * (v1 * w1 + v2 * w2 + v3 * w3) + r * (w1 * w1 + w2 * w2 + w3 * w3))) by (rewrite F3, F5, F6; lra). ring.
Qed.
Theorem c31_wobble_rotated t xp yp : freal t xp yp = g_real (m1 t xp) (m2 t yp) /\ fimag t xp yp = g_imag (m1 t xp) (m2 t yp).
Proof. unfold freal, fimag. rewrite c31_wobble. cbn [fst snd]. unfold g_real, g_imag, arcsec, sec2rad. split; field. Qed.
(** ocean pole loading (7.29): K times the rotated (east, north, up) vector *)
Theorem c31_ocean_displacement t xp yp c rot Re GM Omega G ge : ge <> 0 -> GM <> 0 ->
  ocean_deformation t xp yp c rot Re GM Omega G ge =
    (let Hp := sqrt (8 * PI / 15) * (Omega ^ 2 * Re ^ 4 / GM) in let K := 4 * PI * G * Re * 1025 * Hp / (3 * ge) in
     let gr := g_real (m1 t xp) (m2 t yp) in let gi := g_imag (m1 t xp) (m2 t yp) in
     times K (mulv rot (gr * eR c + gi * eI c, gr * nR c + gi * nI c, gr * rR c + gi * rI c))).
Proof.
  intros H1 H2. cbv zeta. unfold ocean_deformation. destruct (c31_wobble_rotated t xp yp) as (-> & ->).
  replace (4 * (2 * PI) / 15) with (8 * PI / 15) by field. set (s := sqrt _). set (v := mulv _ _). destruct v as ((x, y), z). unfold scalev, times.
  f_equal; [f_equal|]; field; auto.
Qed.
Theorem c31_zero_displacement t lat lon c rot Re GM Omega G ge : ge <> 0 -> GM <> 0 -> solid_deformation t (xs t) (ys t) lat lon = (0, 0, 0) /\
  ocean_deformation t (xs t) (ys t) c rot Re GM Omega G ge = (0, 0, 0).
Proof.
  intros H1 H2. split.
  - rewrite c31_displacement. unfold m1, m2, s_theta, s_lambda, s_r, times, addv, e_theta, e_lambda, e_r. f_equal; [f_equal|]; ring.
  - rewrite c31_ocean_displacement by auto. cbv zeta. unfold g_real, g_imag, m1, m2, arcsec. destruct rot as ((((a, b), e), ((f, g), h)), ((i, j), k)). unfold mulv, times. f_equal; [f_equal|]; field; auto.
Qed.
Example c31_nonvacuous : solid_coeffs 0 0.055 0.3205 = (0, 0) /\ fst (solid_coeffs 0 1.055 0.3205) = -1.333e-9.
Proof. rewrite !c31_solid. unfold m1, m2, xs, ys. split; [f_equal|cbn [fst]]; lra. Qed.
End C31.

(** * C32 ocean pole tide coefficients *)
Open Scope Z_scope.
(** accepted calls up to degree 359 on any object: the coefficients up to the asked degree and order are the model's, the others
    are the old ones times the factor; the object can be used again *)
Theorem c32_exact_partial h o a b c d fr fi fac md mo fC fS : opt_ok h o a b c d -> shows h (odeg o) (oC o) fC -> shows h (odeg o) (oS o) fS ->
  accepted o md mo -> asked o md (odeg o) <= 359 -> 0 < odeg o ->
  exists h', opt_coeffs h o fr fi fac md mo = Ok (h', 0) /\ opt_ok h' o a b c d /\
    (forall x, valid h x -> apart x (oC o) -> apart x (oS o) -> valid h' x /\ forall i j, kept x (i, j) -> get R h' x i j = get R h x i j) /\
    forall n k, 0 <= k <= n -> n <= odeg o ->
      (n <= asked o md (odeg o) -> k <= asked o mo (oord o) ->
         get R h' (oC o) n k = Ok (Some (desai_term a b fr fi n k * fac)%R) /\ get R h' (oS o) n k = Ok (Some (desai_term c d fr fi n k * fac)%R)) /\
      (asked o md (odeg o) < n \/ asked o mo (oord o) < k ->
         get R h' (oC o) n k = Ok (option_map (fun v => v * fac)%R (fC n k)) /\ get R h' (oS o) n k = Ok (option_map (fun v => v * fac)%R (fS n k))).
Proof.
  intros OK HC HS A H9 H0. destruct (opt_exact h o a b c d fr fi fac md mo fC fS OK HC HS A H9 H0) as (h' & E & OK' & B & GC & GS).
  exists h'. split; [exact E|]. split; [exact OK'|]. split; [exact B|]. intros n k Hk Hn. rewrite (GC n k Hk Hn), (GS n k Hk Hn). unfold fresh, computed. split.
  - intros P Q. rewrite (proj2 (Z.leb_le _ _) P), (proj2 (Z.leb_le _ _) Q). split; reflexivity.
  - intros P. replace ((n <=? asked o md (odeg o)) && (k <=? asked o mo (oord o))) with false; [split; reflexivity|]. symmetry. rewrite andb_false_iff, !Z.leb_gt. lia.
Qed.
Lemma sized_shows h d m : sized (A := R) h d m -> exists f, shows h d m f.
Proof. intros S. destruct (MatrixProgProofs.reads_exists h m (proj1 S)) as (f & Hf). exists f. apply (shows_reads h d m); auto. Qed.
(** with the factors of (6.23b) and the wobble (6.23a): the coefficients of the IERS Conventions *)
Theorem c32_iers_partial h o a b c d t xp yp Re GM Omega G ge md mo : opt_ok h o a b c d -> accepted o md mo -> asked o md (odeg o) <= 359 -> 0 < odeg o -> ge <> 0%R -> GM <> 0%R ->
  exists h', opt_stokes h o t xp yp Re GM Omega G ge md mo = Ok (h', 0) /\
    forall n k, 0 <= k <= n -> n <= asked o md (odeg o) -> k <= asked o mo (oord o) ->
      let Rn := (Omega ^ 2 * Re ^ 4 / GM * (4 * PI * G * 1025 / ge) * ((1 + love n) / IZR (2 * n + 1)))%R in
      let gr := g_real (m1 t xp) (m2 t yp) in let gi := g_imag (m1 t xp) (m2 t yp) in
      get R h' (oC o) n k = Ok (Some (Rn * (a n k * gr + b n k * gi))%R) /\ get R h' (oS o) n k = Ok (Some (Rn * (c n k * gr + d n k * gi))%R).
Proof.
  intros K A H9 H0 Hg HGM. destruct (sized_shows h _ _ (ok_C _ _ _ _ _ _ K)) as (f & F). destruct (sized_shows h _ _ (ok_S _ _ _ _ _ _ K)) as (g & Gr).
  unfold opt_stokes. destruct (c31_wobble_rotated t xp yp) as (-> & ->). destruct (c32_exact_partial h o a b c d (g_real (m1 t xp) (m2 t yp)) (g_imag (m1 t xp) (m2 t yp)) (opt_factor Re GM Omega G ge) md mo f g K F Gr A H9 H0) as (h' & E & _ & _ & X).
  exists h'. split; [exact E|]. intros n k Hk Hn Hm. cbv zeta. destruct A as (_ & A2 & _). destruct (X n k Hk ltac:(lia)) as (P & _). destruct (P Hn Hm) as (-> & ->). unfold desai_term, opt_factor.
  assert (Q : IZR (2 * n + 1) <> 0%R) by (apply not_0_IZR; lia). split; do 2 f_equal; field; auto.
Qed.
(** the coefficients a call computes do not depend on what happened before *)
Theorem c32_history_free_partial h1 h2 o a b c d fr fi fac md mo : opt_ok h1 o a b c d -> opt_ok h2 o a b c d ->
  accepted o md mo -> asked o md (odeg o) <= 359 -> 0 < odeg o ->
  exists h1' h2', opt_coeffs h1 o fr fi fac md mo = Ok (h1', 0) /\ opt_coeffs h2 o fr fi fac md mo = Ok (h2', 0) /\
    forall n k, 0 <= k <= n -> n <= asked o md (odeg o) -> k <= asked o mo (oord o) ->
      get R h1' (oC o) n k = get R h2' (oC o) n k /\ get R h1' (oS o) n k = get R h2' (oS o) n k.
Proof.
  intros K1 K2 A H9 H0.
  destruct (sized_shows h1 _ _ (ok_C _ _ _ _ _ _ K1)) as (f1 & F1). destruct (sized_shows h1 _ _ (ok_S _ _ _ _ _ _ K1)) as (g1 & G1).
  destruct (sized_shows h2 _ _ (ok_C _ _ _ _ _ _ K2)) as (f2 & F2). destruct (sized_shows h2 _ _ (ok_S _ _ _ _ _ _ K2)) as (g2 & G2).
  destruct (c32_exact_partial h1 o a b c d fr fi fac md mo f1 g1 K1 F1 G1 A H9 H0) as (h1' & E1 & _ & _ & X1).
  destruct (c32_exact_partial h2 o a b c d fr fi fac md mo f2 g2 K2 F2 G2 A H9 H0) as (h2' & E2 & _ & _ & X2).
  exists h1', h2'. split; [exact E1|]. split; [exact E2|]. intros n k Hk Hn Hm. destruct A as (_ & A2 & _).
  destruct (X1 n k Hk ltac:(lia)) as (P1 & _). destruct (X2 n k Hk ltac:(lia)) as (P2 & _).
  destruct (P1 Hn Hm) as (-> & ->). destruct (P2 Hn Hm) as (-> & ->). auto.
Qed.
(** so a full call determines every coefficient *)
Theorem c32_full_partial h o a b c d fr fi fac : opt_ok h o a b c d -> oord o = odeg o -> 0 < odeg o <= 359 ->
  exists h', opt_coeffs h o fr fi fac (-1) (-1) = Ok (h', 0) /\
    shows h' (odeg o) (oC o) (fun n k => Some (desai_term a b fr fi n k * fac)%R) /\ shows h' (odeg o) (oS o) (fun n k => Some (desai_term c d fr fi n k * fac)%R).
Proof.
  intros K Ho H9. destruct (sized_shows h _ _ (ok_C _ _ _ _ _ _ K)) as (f & F). destruct (sized_shows h _ _ (ok_S _ _ _ _ _ _ K)) as (g & G).
  destruct (c32_exact_partial h o a b c d fr fi fac (-1) (-1) f g K F G) as (h' & E & _ & _ & X); [unfold accepted, asked; cbn; lia|unfold asked; cbn; lia|lia|].
  exists h'. split; [exact E|]. split; intros n k Hk Hn; destruct (X n k Hk Hn) as (P & _); apply P; unfold asked; cbn; lia.
Qed.
(** any sequence of calls, accepted or not *)
Record call := mkCall { c_fr : R; c_fi : R; c_fac : R; c_md : Z; c_mo : Z }.
Fixpoint calls (h : mem R) (o : opt) (l : list call) : res (mem R) :=
  match l with [] => Ok h | x :: t => ' (h', _) <- opt_coeffs h o (c_fr x) (c_fi x) (c_fac x) (c_md x) (c_mo x) ;; calls h' o t end.
Theorem c32_calls_partial o a b c d l : 0 < odeg o <= 359 -> forall h, opt_ok h o a b c d -> exists h', calls h o l = Ok h' /\ opt_ok h' o a b c d.
Proof.
  intros H9. induction l as [|x l IH]; intros h K; [exists h; auto|]. cbn [calls].
  assert (D : accepted o (c_md x) (c_mo x) \/ ~ accepted o (c_md x) (c_mo x)) by (unfold accepted; lia). destruct D as [A|N].
  - destruct (sized_shows h _ _ (ok_C _ _ _ _ _ _ K)) as (f & F). destruct (sized_shows h _ _ (ok_S _ _ _ _ _ _ K)) as (g & G).
    destruct (c32_exact_partial h o a b c d (c_fr x) (c_fi x) (c_fac x) (c_md x) (c_mo x) f g K F G A) as (h' & E & K' & _); [destruct A; lia|lia|].
    rewrite E. cbn [bind]. apply IH. exact K'.
  - rewrite (opt_refused h o _ _ _ _ _ N). cbn [bind]. apply IH. exact K.
Qed.
Theorem c32_refused h o fr fi fac md mo : ~ accepted o md mo -> opt_coeffs h o fr fi fac md mo = Ok (h, 1).
Proof. exact (opt_refused h o fr fi fac md mo). Qed.
(** the Love numbers of the table are increasing from degree 1 on *)
Theorem c32_love : length kn_table = 361%nat /\ forall n, 1 <= n < 360 -> (love n < love (n + 1) <= 0)%R.
Proof.
  split; [reflexivity|]. intros n H.
  assert (K : forallb (fun n => match nth_error kn_table (Z.to_nat n), nth_error kn_table (Z.to_nat (n + 1)) with Some x, Some y => (x <? y) && (y <=? 0) | _, _ => false end) (zrange2 1 360) = true) by (vm_compute; reflexivity).
  rewrite forallb_forall in K. specialize (K n). unfold love. destruct (nth_error kn_table (Z.to_nat n)) as [x|]; [|exfalso; discriminate K; apply in_zrange2; lia].
  destruct (nth_error kn_table (Z.to_nat (n + 1))) as [y|]; [|exfalso; discriminate K; apply in_zrange2; lia].
  assert (Q : x < y /\ y <= 0) by (assert (I : In n (zrange2 1 360)) by (apply in_zrange2; lia); specialize (K I); apply andb_true_iff in K; rewrite Z.ltb_lt, Z.leb_le in K; exact K).
  destruct Q as (Q1 & Q2). apply IZR_lt in Q1. apply IZR_le in Q2. assert (0 < / 10 ^ 12)%R by (apply Rinv_0_lt_compat; lra). unfold Rdiv. split; [apply Rmult_lt_compat_r; auto|].
  replace 0%R with (0 * / 10 ^ 12)%R by ring. apply Rmult_le_compat_r; lra.
Qed.
(** every accepted call of degree 360 writes past the array of 360 factors *)
Theorem c32_degree360_refuted h o a b c d fr fi fac md mo : opt_ok h o a b c d -> accepted o md mo -> asked o md (odeg o) = 360 ->
  opt_coeffs h o fr fi fac md mo = UB.
Proof.
  intros K A E. destruct (sized_shows h _ _ (ok_C _ _ _ _ _ _ K)) as (f & F). destruct (sized_shows h _ _ (ok_S _ _ _ _ _ _ K)) as (g & G). exact (opt_360 h o a b c d fr fi fac md mo f g K F G A E).
Qed.
(** a default constructed object has no coefficient matrices: every accepted call reads through a null pointer *)
Theorem c32_default_refuted h o fr fi fac md mo : accepted o md mo -> 0 <= asked o md (odeg o) -> ptr (Ar o) = None -> opt_coeffs h o fr fi fac md mo = UB.
Proof. exact (opt_default h o fr fi fac md mo). Qed.
(** degree 0: the factor is not applied *)
Theorem c32_degree0_refuted h o a b c d fr fi fac md mo : opt_ok h o a b c d -> accepted o md mo -> odeg o = 0 ->
  exists h', opt_coeffs h o fr fi fac md mo = Ok (h', 0) /\ get R h' (oC o) 0 0 = Ok (Some (desai_term a b fr fi 0 0)).
Proof.
  intros K A E. destruct (sized_shows h _ _ (ok_C _ _ _ _ _ _ K)) as (f & F). destruct (sized_shows h _ _ (ok_S _ _ _ _ _ _ K)) as (g & G).
  destruct (opt_degree0 h o a b c d fr fi fac md mo f g K F G A E) as (h' & X & _ & GC & _). exists h'. split; [exact X|]. apply GC; lia.
Qed.

(** concrete objects of degree 1: six matrices of three cells *)
Definition opt1 : opt := mkOpt 1 1 1 (cell_mat 0 1) (cell_mat 1 1) (cell_mat 2 1) (cell_mat 3 1) (cell_mat 4 1) (cell_mat 5 1).
Definition tri (x y z : R) : block R := Live [Some x; Some y; Some z].
Definition heap1 (x : R) : mem R := [tri 0 x 0; tri 0 0 0; tri 1 2 3; tri 0 0 0; tri 0 0 1; tri 0 0 0].
Definition three (x y z : R) (n k : Z) : R := if n =? 0 then x else if k =? 0 then y else z.
Lemma opt1_ok x : opt_ok (heap1 x) opt1 (three 1 2 3) (three 0 0 0) (three 0 0 1) (three 0 0 0).
Proof.
  assert (S : forall p x1 x2 x3, nth_error (heap1 x) p = Some (tri x1 x2 x3) -> sized (heap1 x) 1 (cell_mat p 1) /\ shows (heap1 x) 1 (cell_mat p 1) (fun i j => Some (three x1 x2 x3 i j))).
  { intros p x1 x2 x3 E. split; [eapply cell_sized; [lia|exact E|reflexivity]|]. intros n k Hk Hn.
    assert (Q : (n = 0 /\ k = 0) \/ (n = 1 /\ k = 0) \/ (n = 1 /\ k = 1)) by lia. unfold get, load, cell_mat. cbn [ptr]. rewrite E. destruct Q as [(-> & ->)|[(-> & ->)|(-> & ->)]]; reflexivity. }
  assert (A : forall p q, p <> q -> apart (cell_mat p 1) (cell_mat q 1)) by (intros p q N; right; cbn; congruence).
  constructor; cbn [odeg oord csdeg oC oS Ar Ai Br Bi opt1]; try lia.
  - apply (S 0%nat 0%R x 0%R eq_refl).
  - apply (S 1%nat 0%R 0%R 0%R eq_refl).
  - apply A; lia.
  - destruct (S 2%nat 1%R 2%R 3%R eq_refl). refine (conj _ (conj _ (conj _ _))); auto; apply A; lia.
  - destruct (S 3%nat 0%R 0%R 0%R eq_refl). refine (conj _ (conj _ (conj _ _))); auto; apply A; lia.
  - destruct (S 4%nat 0%R 0%R 1%R eq_refl). refine (conj _ (conj _ (conj _ _))); auto; apply A; lia.
  - destruct (S 5%nat 0%R 0%R 0%R eq_refl). refine (conj _ (conj _ (conj _ _))); auto; apply A; lia.
Qed.
(** a call with a smaller degree leaves old values, scaled once more: two objects with the same model give different results *)
Theorem c32_stale_refuted : exists h1 h2 o a b c d, opt_ok h1 o a b c d /\ opt_ok h2 o a b c d /\ accepted o 0 0 /\
  forall fr fi fac, fac <> 0%R -> exists h1' h2', opt_coeffs h1 o fr fi fac 0 0 = Ok (h1', 0) /\ opt_coeffs h2 o fr fi fac 0 0 = Ok (h2', 0) /\
    get R h1' (oC o) 1 0 = Ok (Some 0%R) /\ get R h2' (oC o) 1 0 = Ok (Some fac).
Proof.
  exists (heap1 0), (heap1 1), opt1, (three 1 2 3), (three 0 0 0), (three 0 0 1), (three 0 0 0).
  assert (A : accepted opt1 0 0) by (unfold accepted, asked; cbn; lia).
  split; [apply opt1_ok|]. split; [apply opt1_ok|]. split; [exact A|]. intros fr fi fac N.
  assert (X : forall x, exists h', opt_coeffs (heap1 x) opt1 fr fi fac 0 0 = Ok (h', 0) /\ get R h' (oC opt1) 1 0 = Ok (Some (x * fac)%R)).
  { intros x. destruct (sized_shows (heap1 x) _ _ (ok_C _ _ _ _ _ _ (opt1_ok x))) as (f & F). destruct (sized_shows (heap1 x) _ _ (ok_S _ _ _ _ _ _ (opt1_ok x))) as (g & G).
    destruct (c32_exact_partial (heap1 x) opt1 _ _ _ _ fr fi fac 0 0 f g (opt1_ok x) F G A) as (h' & E & _ & _ & P); [unfold asked; cbn; lia|cbn; lia|].
    exists h'. split; [exact E|]. destruct (P 1 0) as (_ & Q); [lia|cbn; lia|]. destruct Q as (Q & _); [left; unfold asked; cbn; lia|]. rewrite Q.
    assert (FX : Ok (f 1 0) = Ok (Some x)) by (rewrite <- (F 1 0); [reflexivity|lia|cbn; lia]). injection FX as ->. reflexivity. }
  destruct (X 0%R) as (h1' & E1 & G1). destruct (X 1%R) as (h2' & E2 & G2). exists h1', h2'. rewrite Rmult_0_l in G1. rewrite Rmult_1_l in G2. auto.
Qed.
Example c32_nonvacuous : opt_ok (heap1 0) opt1 (three 1 2 3) (three 0 0 0) (three 0 0 1) (three 0 0 0) /\ accepted opt1 (-1) (-1) /\ accepted opt1 1 0 /\ oord opt1 = odeg opt1.
Proof. split; [apply opt1_ok|]. unfold accepted, asked. cbn. lia. Qed.

(** * C33 Desai's coefficient file *)
Section C33.
  Variable sdbl : list Z -> option R * list Z.
  (** [own4]: four separate matrices; [in_file]: records within the limits have 0 <= order <= degree *)
  Theorem c33_reads_partial h m md mo head lines rs : own4 h m -> 0 <= mo <= md -> md <= 360 -> (length head <= 255)%nat -> squeeze head = header_text ->
    Forall2 (reads_row sdbl) lines rs -> Forall (in_file md mo) rs ->
    exists h' m', parse_desai sdbl h m md mo (Some (head :: lines)) = Ok (h', m', 0) /\ shows_file h' m' rs md mo.
  Proof. exact (parse_ok sdbl h m md mo head lines rs). Qed.
  (** lines of blank separated columns *)
  Theorem c33_columns_partial h m md mo head lines rs : word_scanner sdbl -> own4 h m -> 0 <= mo <= md -> md <= 360 -> (length head <= 255)%nat -> squeeze head = header_text ->
    Forall2 (row_line sdbl) lines rs -> Forall (in_file md mo) rs ->
    exists h' m', parse_desai sdbl h m md mo (Some (head :: lines)) = Ok (h', m', 0) /\ shows_file h' m' rs md mo.
  Proof.
    intros W O Hm Hd L S F. apply (parse_ok sdbl h m md mo head lines rs O Hm Hd L S). clear -W F. induction F; constructor; auto. apply row_reads; auto.
  Qed.
  (** success means a file of that form *)
  Theorem c33_sound h m md mo ls h' m' : own4 h m -> parse_desai sdbl h m md mo (Some ls) = Ok (h', m', 0) ->
    mo <= md <= 360 /\ exists head lines rs, ls = head :: lines /\ (length head <= 255)%nat /\ squeeze head = header_text /\ Forall2 (reads_row sdbl) lines rs.
  Proof. exact (parse_sound sdbl h m md mo ls h' m'). Qed.
  Theorem c33_header line : cmp_nwsc line header_text = false <-> squeeze line = header_text.
  Proof. exact (header_iff line). Qed.
  Theorem c33_refused h m md mo lines : lines = None \/ md < mo \/ 360 < md -> parse_desai sdbl h m md mo lines = Ok (h, m, 1).
  Proof. exact (parse_refused sdbl h m md mo lines). Qed.
  Theorem c33_wrong_header h m md mo head lines : own4 h m -> 0 <= md -> mo <= md -> md <= 360 -> squeeze head <> header_text -> (length head <= 255)%nat ->
    exists h' m', parse_desai sdbl h m md mo (Some (head :: lines)) = Ok (h', m', 1).
  Proof. exact (parse_header sdbl h m md mo head lines). Qed.
  Theorem c33_long_line h m md mo head lines rs long tail : own4 h m -> 0 <= mo <= md -> md <= 360 -> (length head <= 255)%nat -> squeeze head = header_text ->
    Forall2 (reads_row sdbl) lines rs -> Forall (in_file md mo) rs -> (255 < length long)%nat ->
    exists h' m', parse_desai sdbl h m md mo (Some (head :: lines ++ long :: tail)) = Ok (h', m', 5).
  Proof. exact (parse_long sdbl h m md mo head lines rs long tail). Qed.
  (** a line without numbers *)
  Theorem c33_no_numbers h m md mo head line tail : own4 h m -> 0 <= mo <= md -> md <= 360 -> (length head <= 255)%nat -> squeeze head = header_text ->
    (length line <= 255)%nat -> (forall r, ~ reads_row sdbl line r) -> fst (scan_i32 (skip_blanks line)) = None ->
    fst (scan_i32 (skip_blanks (snd (scan_i32 (skip_blanks line))))) = None ->
    exists h' m', parse_desai sdbl h m md mo (Some (head :: line :: tail)) = Ok (h', m', 1).
  Proof. exact (parse_garbage sdbl h m md mo head line tail). Qed.
  (** every file: records only, or records followed by a line that is too long or cannot be read *)
  Theorem c33_cases lines : (exists rs, Forall2 (reads_row sdbl) lines rs) \/
    exists good rs bad tail, lines = good ++ bad :: tail /\ Forall2 (reads_row sdbl) good rs /\ ((255 < length bad)%nat \/ ((length bad <= 255)%nat /\ forall r, ~ reads_row sdbl bad r)).
  Proof. exact (file_cases sdbl lines). Qed.
  (** a line that cannot be read is reported and ends the reading; all coefficients but the one it names are those of the records before.
      A degree or order that cannot be read is taken over from the record before *)
  Theorem c33_malformed_partial h m md mo head lines rs bad tail : own4 h m -> 0 <= mo <= md -> md <= 360 -> (length head <= 255)%nat -> squeeze head = header_text ->
    Forall2 (reads_row sdbl) lines rs -> Forall (in_file md mo) rs -> (length bad <= 255)%nat -> (forall r, ~ reads_row sdbl bad r) ->
    let n := match first_int bad with Some v => v | None => dn (last rs row0) end in let k := match second_int bad with Some v => v | None => dm (last rs row0) end in
    (n <= md -> k <= mo -> 0 <= k <= n) ->
    exists h' m', parse_desai sdbl h m md mo (Some (head :: lines ++ bad :: tail)) = Ok (h', m', 1) /\
      exists a b c d, four h' md m' a b c d /\ forall i j, 0 <= j <= i -> i <= md -> (i <> n \/ j <> k) ->
        a i j = Some (file_value dAr rs mo i j) /\ b i j = Some (file_value dAi rs mo i j) /\ c i j = Some (file_value dBr rs mo i j) /\ d i j = Some (file_value dBi rs mo i j).
  Proof. exact (parse_malformed sdbl h m md mo head lines rs bad tail). Qed.
  Theorem c33_long_header h m md mo head lines : own4 h m -> 0 <= mo <= md -> md <= 360 -> (255 < length head)%nat ->
    exists h' m' e, parse_desai sdbl h m md mo (Some (head :: lines)) = Ok (h', m', e) /\ (e = 1 \/ e = 5) /\ (e = 5 <-> squeeze (firstn 255 head) = header_text).
  Proof.
    intros O Hm Hd L. destruct (parse_long_header sdbl h m md mo head lines O Hm Hd L) as (h' & m' & E). do 3 eexists. split; [exact E|]. pose proof (header_iff (firstn 255 head)) as I.
    destruct (cmp_nwsc _ _); split; auto; split; intros H; try discriminate; [apply I in H; discriminate|apply I; reflexivity|reflexivity].
  Qed.
  Theorem c33_empty h m md mo : own4 h m -> 0 <= mo <= md -> md <= 360 -> exists h' m', parse_desai sdbl h m md mo (Some []) = Ok (h', m', 1).
  Proof. exact (parse_empty sdbl h m md mo). Qed.
  (** a negative degree writes in front of the matrix *)
  Theorem c33_negative_degree_refuted h m md mo head line r lines : own4 h m -> 0 <= mo <= md -> md <= 360 -> (length head <= 255)%nat -> squeeze head = header_text ->
    reads_row sdbl line r -> dn r < 0 -> dm r = 0 -> parse_desai sdbl h m md mo (Some (head :: line :: lines)) = UB.
  Proof. exact (parse_negative sdbl h m md mo head line r lines). Qed.
  (** an order above the degree is not reported: the record (0, 1) is stored as (md, 0) *)
  Theorem c33_order_above_degree_refuted h m md mo head line r line' r' : own4 h m -> 1 <= mo <= md -> md <= 360 -> (length head <= 255)%nat -> squeeze head = header_text ->
    reads_row sdbl line r -> dn r = 0 -> dm r = 1 -> reads_row sdbl line' r' -> dn r' = md -> dm r' = 0 ->
    dAr r = dAr r' -> dAi r = dAi r' -> dBr r = dBr r' -> dBi r = dBi r' ->
    parse_desai sdbl h m md mo (Some [head; line]) = parse_desai sdbl h m md mo (Some [head; line']) /\
    exists h' m', parse_desai sdbl h m md mo (Some [head; line]) = Ok (h', m', 0) /\ get R h' (cAr m') md 0 = Ok (Some (dAr r)).
  Proof.
    intros O Hm Hd L S R1 N1 M1 R2 N2 M2 Q1 Q2 Q3 Q4.
    pose proof (parse_alias sdbl h m md mo head line r line' r' O Hm Hd L S R1 N1 M1 R2 N2 M2 Q1 Q2 Q3 Q4) as E. split; [exact E|]. rewrite E.
    destruct (parse_ok sdbl h m md mo head [line'] [r'] O ltac:(lia) Hd L S) as (h' & m' & P & G); [constructor; auto|constructor; [|constructor]; intros _ _; lia|].
    exists h', m'. split; [exact P|]. destruct G as ((_ & G) & _). rewrite (G md 0) by lia. unfold file_value. cbn [last_row]. rewrite N2, M2, !Z.eqb_refl. cbn [andb].
    rewrite (proj2 (Z.leb_le 0 mo)) by lia. rewrite Q1. reflexivity.
  Qed.
End C33.
Definition four1 : coefs := mkCf (cell_mat 2 1) (cell_mat 3 1) (cell_mat 4 1) (cell_mat 5 1).
Example c33_nonvacuous : own4 (heap1 0) four1 /\ squeeze (chars " n  m Anm(Real)   Bnm(Real) Anm(Imaginary) Bnm(Imaginary)") = header_text /\
  exists r, reads_row scan_dbl (chars "1  0  1.5 -2 0.25 4") r /\ dn r = 1 /\ dm r = 0 /\ dBi r = 4%R /\ in_file 1 1 r.
Proof.
  destruct (opt1_ok 0). split; [|split; [reflexivity|]].
  - unfold own4, four1. cbn [cAr cAi cBr cBi]. cbn [Ar Ai Br Bi opt1] in *. destruct ok_Ar as ((? & ? & _) & _), ok_Ai as ((? & ? & _) & _), ok_Br as ((? & ? & _) & _), ok_Bi as ((? & ? & _) & _).
    assert (A : forall p q, p <> q -> apart (cell_mat p 1) (cell_mat q 1)) by (intros p q N; right; cbn; congruence).
    refine (conj (conj _ _) (conj (conj _ _) (conj (conj _ _) (conj (conj _ _) _)))); auto. unfold disjoint4. cbn [cAr cAi cBr cBi]. refine (conj _ (conj _ (conj _ (conj _ (conj _ _))))); apply A; lia.
  - exists (mkRow 1 0 (IZR 15 * pow10 (-1)) (- (IZR 2 * pow10 0)) (IZR 25 * pow10 (-2)) (IZR 4 * pow10 0)). split; [|cbn; unfold in_file; cbn; refine (conj eq_refl (conj eq_refl (conj _ _))); [unfold pow10; cbn; lra|lia]].
    split; [cbn; lia|]. repeat eexists.
Qed.
Example c33_malformed_nonvacuous : let bad := chars "1  0  1.5 x 0.25 4" in (forall r, ~ reads_row scan_dbl bad r) /\ first_int bad = Some 1 /\ second_int bad = Some 0.
Proof.
  cbv zeta. split; [|split; reflexivity]. intros r (_ & r1 & r2 & r3 & r4 & r5 & r6 & E1 & E2 & E3 & E4 & _).
  change (scan_i32 (skip_blanks (chars "1  0  1.5 x 0.25 4"))) with (Some 1, chars "  0  1.5 x 0.25 4") in E1. injection E1 as _ <-.
  change (scan_i32 (skip_blanks (chars "  0  1.5 x 0.25 4"))) with (Some 0, chars "  1.5 x 0.25 4") in E2. injection E2 as _ <-.
  assert (Q : snd (scan_dbl (skip_blanks (chars "  1.5 x 0.25 4"))) = chars " x 0.25 4") by reflexivity. rewrite E3 in Q. cbn [snd] in Q. subst r3. discriminate E4.
Qed.
Print Assumptions c31_wobble.
Print Assumptions c31_solid.
Print Assumptions c31_ocean.
Print Assumptions c31_linear.
Print Assumptions c31_zero.
Print Assumptions c31_displacement.
Print Assumptions c31_components.
Print Assumptions c31_wobble_rotated.
Print Assumptions c31_ocean_displacement.
Print Assumptions c31_zero_displacement.
Print Assumptions c32_exact_partial.
Print Assumptions c32_history_free_partial.
Print Assumptions c32_full_partial.
Print Assumptions c32_calls_partial.
Print Assumptions c32_refused.
Print Assumptions c32_love.
Print Assumptions c32_degree360_refuted.
Print Assumptions c32_default_refuted.
Print Assumptions c32_degree0_refuted.
Print Assumptions c32_stale_refuted.
Print Assumptions c33_reads_partial.
Print Assumptions c33_columns_partial.
Print Assumptions c33_sound.
Print Assumptions c33_header.
Print Assumptions c33_refused.
Print Assumptions c33_wrong_header.
Print Assumptions c33_long_line.
Print Assumptions c33_no_numbers.
Print Assumptions c33_negative_degree_refuted.
Print Assumptions c33_order_above_degree_refuted.
Print Assumptions c33_cases.
Print Assumptions c33_malformed_partial.
Print Assumptions c33_long_header.
Print Assumptions c33_empty.
Print Assumptions c32_iers_partial.
