(** C64: proofs. *)
From Coq Require Import Reals ZArith List Bool Lia Lra Permutation.
From Verif Require Import Base DoodsonModel DoodsonArgModel FundModel FundSpec TideModel Angles RotModel SolidModel Vec SolidSpec SolidProofs SolidProofs2 SsdModel SsdSpec.
Import ListNotations.
Open Scope R_scope.

Lemma cos2 x : cos (2 * x) = cos x * cos x - sin x * sin x.
Proof. apply cos_2a. Qed.
Lemma sin2 x : sin (2 * x) = 2 * sin x * cos x.
Proof. apply sin_2a. Qed.
Lemma sc1 x : cos x * cos x = 1 - sin x * sin x.
Proof. pose proof (sin2_cos2 x). unfold Rsqr in *. lra. Qed.
Ltac flat := repeat match goal with
  | |- context [app3 _ _] => unfold app3 | |- context [geodetic2lvlh _ _] => unfold geodetic2lvlh | |- context [transp _] => unfold transp
  | |- context [vplus _ _] => unfold vplus | |- context [vminus _ _] => unfold vminus | |- context [vmul _ _] => unfold vmul
  | |- context [local _ _ _ _] => unfold local | |- context [up _] => unfold up | |- context [east _] => unfold east | |- context [north _] => unfold north
  | |- context [position _ _ _] => unfold position | |- context [dot _ _] => unfold dot end;
  cbn [p1 p2 p3 row1 row2 row3 radius latitude longitude].

Lemma vplus_assoc a b c : vplus a (vplus b c) = vplus (vplus a b) c.
Proof. apply v3_eq; cbn; ring. Qed.
Lemma vplus_comm a b : vplus a b = vplus b a.
Proof. apply v3_eq; cbn; ring. Qed.
Lemma app3_plus A u v : app3 A (vplus u v) = vplus (app3 A u) (app3 A v).
Proof. apply v3_eq; cbn; unfold dot; cbn; ring. Qed.
Lemma app3_mul A k v : app3 A (vmul k v) = vmul k (app3 A v).
Proof. apply v3_eq; cbn; unfold dot; cbn; ring. Qed.
Lemma app_local r lat lon v : app3 (geodetic2lvlh lat lon) v = local (mkPl r lat lon) (p1 v) (p2 v) (p3 v).
Proof. flat. apply v3_eq; cbn [p1 p2 p3]; ring. Qed.
Lemma lvlh_orth lat lon v : app3 (geodetic2lvlh lat lon) (app3 (transp (geodetic2lvlh lat lon)) v) = v.
Proof. flat. pose proof (sc1 lat) as A. pose proof (sc1 lon) as B. apply v3_eq; cbn [p1 p2 p3]; ring [A B]. Qed.
Lemma local_plus p e n u e' n' u' : vplus (local p e n u) (local p e' n' u') = local p (e + e') (n + n') (u + u').
Proof. flat. apply v3_eq; cbn [p1 p2 p3]; ring. Qed.
Lemma local_mul p k e n u : vmul k (local p e n u) = local p (k * e) (k * n) (k * u).
Proof. flat. apply v3_eq; cbn [p1 p2 p3]; ring. Qed.

(** ** degrees two and three *)
Lemma len_at v p : is_at v p -> len v = radius p.
Proof. intros [H ->]. apply len_position, H. Qed.
Lemma normalized_at v p : is_at v p -> normalized v = up p.
Proof. intros H. unfold normalized. rewrite (len_at v p H). destruct H as [H ->]. unfold up, position, vdiv. apply v3_eq; cbn; field; lra. Qed.
Lemma lat_term_at v p : is_at v p -> lat_term v = (3 * sin (latitude p) ^ 2 - 1) / 2.
Proof.
  intros H. unfold lat_term. rewrite (len_at v p H). destruct H as [H ->]. cbn [position p3]. replace (radius p * sin (latitude p) / radius p) with (sin (latitude p)) by (field; lra).
  cbv zeta. field.
Qed.
Lemma cosangle_sym p q : cosangle p q = dot (up q) (up p).
Proof. unfold cosangle, up, dot. ring. Qed.
Lemma in_phase_ok Re k v w p q : is_at v p -> is_at w q -> vmul (factor Re k w) (in_phase_terms Re v w) = in_phase Re k p q.
Proof.
  intros P Q. unfold factor, in_phase_terms, in_phase, love2, shida2, h2, l2, strength. rewrite (lat_term_at v p P), (normalized_at v p P), (normalized_at w q Q), (len_at w q Q), (cosangle_sym p q).
  cbv zeta. set (c := dot (up q) (up p)). set (s := sin (latitude p)). set (x := Re / radius q). unfold love_h0, love_h2, love_h3, shida_l0, shida_l2, shida_l3.
  apply v3_eq; cbn [p1 p2 p3 vplus vmul vminus Nat.add]; field.
Qed.

(** ** the fields of step 1 at the chosen coordinates *)
Definition extra (p q : place) : v3 := vsum [out_diurnal p q; out_semidiurnal p q; lat_diurnal p q; lat_semidiurnal p q].
Lemma drs_local v w : let p := to_place (cartesian2spherical v) in let q := to_place (cartesian2spherical w) in
  local p (p1 (drs (point_trigs v) (point_trigs w))) (p2 (drs (point_trigs v) (point_trigs w))) (p3 (drs (point_trigs v) (point_trigs w))) = extra p q.
Proof.
  intros p q. unfold extra, vsum, fold_right, out_diurnal, out_semidiurnal, lat_diurnal, lat_semidiurnal, drs, point_trigs. cbv zeta. cbn [p1 p2 p3 msph mslat mclat].
  unfold p, q, to_place. cbn [latitude longitude]. set (a := slat (cartesian2spherical v)). set (b := slon (cartesian2spherical v)). set (c := slat (cartesian2spherical w)). set (d := slon (cartesian2spherical w)).
  rewrite !sin2, !cos2. set (x := b - d). clearbody x a b c d. unfold v0.
  replace (-1.5) with (- (3 / 2)) by lra. replace (-0.75) with (- (3 / 4)) by lra. replace 0.75 with (3 / 4) by lra. replace (-0.5) with (- (1 / 2)) by lra.
  generalize (-0.0025), (-0.0022), (-0.0007), 0.0012, 0.0024. intros h10 h11 l10 l18 l19. flat. apply v3_eq; cbn [p1 p2 p3]; field.
Qed.

(** ** dependence on the direction only *)
Definition tq (A B : R) (p : place) : v3 :=
  local p (sin (latitude p) * (cos (longitude p) * A + sin (longitude p) * B)) (cos (2 * latitude p) * (sin (longitude p) * A - cos (longitude p) * B)) 0.
Definition uq (A B : R) (p : place) : v3 := local p 0 0 (sin (2 * latitude p) * (sin (longitude p) * A - cos (longitude p) * B)).
Definition lq (A B : R) (p : place) : v3 :=
  local p (- sin (latitude p) * (cos (2 * latitude p) * (sin (longitude p) * A - cos (longitude p) * B))) (sin (latitude p) * (sin (latitude p) * (cos (longitude p) * A + sin (longitude p) * B))) 0.
(** twice the longitude *)
Definition ca2 (A B : R) (p : place) : R := cos (2 * longitude p) * A + sin (2 * longitude p) * B.
Definition sa2 (A B : R) (p : place) : R := sin (2 * longitude p) * A - cos (2 * longitude p) * B.
Definition tq2 (A B : R) (p : place) : v3 := local p (- (2 * cos (latitude p) * ca2 A B p)) (sin (2 * latitude p) * sa2 A B p) 0.
Definition uq2 (A B : R) (p : place) : v3 := local p 0 0 (cos (latitude p) ^ 2 * sa2 A B p).
Definition lq2 (A B : R) (p : place) : v3 := local p (sin (latitude p) * cos (latitude p) * (sin (latitude p) * sa2 A B p)) (sin (latitude p) * cos (latitude p) * ca2 A B p) 0.
Definition px (p : place) : R := cos (latitude p) * cos (longitude p).
Definition py (p : place) : R := cos (latitude p) * sin (longitude p).
Definition pz (p : place) : R := sin (latitude p).
Ltac poly p := unfold px, py, pz, ca2, sa2; rewrite ?sin2, ?cos2; flat;
  let H1 := fresh "H1" in let H2 := fresh "H2" in pose proof (sc1 (latitude p)) as H1; pose proof (sc1 (longitude p)) as H2; apply v3_eq; cbn [p1 p2 p3]; ring [H1 H2].
Lemma tq_poly A B p : let x := px p in let y := py p in let z := pz p in
  tq A B p = mk3 (z * (-2 * x * y * A + 2 * x * x * B - B)) (z * (-2 * y * y * A + 2 * x * y * B + A)) ((1 - 2 * z * z) * (y * A - x * B)).
Proof. cbv zeta. unfold tq. poly p. Qed.
Lemma uq_poly A B p : let x := px p in let y := py p in let z := pz p in
  uq A B p = vmul (2 * z * (y * A - x * B)) (mk3 x y z).
Proof. cbv zeta. unfold uq. poly p. Qed.
Lemma lq_poly A B p : let x := px p in let y := py p in let z := pz p in
  lq A B p = mk3 (z * (y * y * A - x * y * B - z * z * A)) (z * (x * x * B - x * y * A - z * z * B)) (z * z * (x * A + y * B)).
Proof. cbv zeta. unfold lq. poly p. Qed.
Lemma tq2_poly A B p : let x := px p in let y := py p in let z := pz p in
  tq2 A B p = vmul 2 (mk3 (A * (-y + 2 * x * x * y) + B * (x - x * (x * x - y * y))) (A * (-x + 2 * x * y * y) + B * (-y - y * (x * x - y * y))) (z * (2 * x * y * A - (x * x - y * y) * B))).
Proof. cbv zeta. unfold tq2. poly p. Qed.
Lemma uq2_poly A B p : let x := px p in let y := py p in let z := pz p in
  uq2 A B p = vmul (2 * x * y * A - (x * x - y * y) * B) (mk3 x y z).
Proof. cbv zeta. unfold uq2. poly p. Qed.
Lemma lq2_poly A B p : let x := px p in let y := py p in let z := pz p in
  lq2 A B p = mk3 (- (z * z * (x * A + y * B))) (z * z * (y * A - x * B)) (z * ((x * x - y * y) * A + 2 * x * y * B)).
Proof. cbv zeta. unfold lq2. poly p. Qed.
Ltac form := unfold out_diurnal, out_semidiurnal, lat_diurnal, lat_semidiurnal, tq, uq, lq, tq2, uq2, lq2, ca2, sa2, px, py, pz; cbv zeta;
  rewrite ?sin2, ?cos2, ?sin_minus, ?cos_minus; flat.
Lemma out_diurnal_form p q : out_diurnal p q = vplus (vmul (- (3 / 2) * -0.0007) (tq (2 * pz q * px q) (2 * pz q * py q) p)) (vmul (- (3 / 4) * -0.0025) (uq (2 * pz q * px q) (2 * pz q * py q) p)).
Proof. form. generalize (-0.0025), (-0.0007). intros h l. apply v3_eq; cbn [p1 p2 p3]; field. Qed.
Lemma out_semidiurnal_form p q : let A := px q * px q - py q * py q in let B := 2 * px q * py q in
  out_semidiurnal p q = vplus (vmul (3 / 4 * -0.0007) (tq2 A B p)) (vmul (- (3 / 4) * -0.0022) (uq2 A B p)).
Proof. form. generalize (-0.0022), (-0.0007). intros h l. apply v3_eq; cbn [p1 p2 p3]; field. Qed.
Lemma lat_diurnal_form p q : lat_diurnal p q = vmul (- (3 / 2) * 0.0012) (lq (2 * pz q * px q) (2 * pz q * py q) p).
Proof. form. generalize 0.0012. intros l. apply v3_eq; cbn [p1 p2 p3]; field. Qed.
Lemma lat_semidiurnal_form p q : let A := px q * px q - py q * py q in let B := 2 * px q * py q in
  lat_semidiurnal p q = vmul (- (3 / 2) * 0.0024) (lq2 A B p).
Proof. form. generalize 0.0024. intros l. apply v3_eq; cbn [p1 p2 p3]; field. Qed.
Lemma dir_coords p q : same_dir p q -> px p = px q /\ py p = py q /\ pz p = pz q.
Proof. intros (_ & Z & X & Y). auto. Qed.
Lemma tq_dir A B p q : same_dir p q -> tq A B p = tq A B q.
Proof. intros S. destruct (dir_coords p q S) as (X & Y & Z). rewrite !tq_poly, X, Y, Z. reflexivity. Qed.
Lemma uq_dir A B p q : same_dir p q -> uq A B p = uq A B q.
Proof. intros S. destruct (dir_coords p q S) as (X & Y & Z). rewrite !uq_poly, X, Y, Z. reflexivity. Qed.
Lemma extra_dir p q p' q' : same_dir p p' -> same_dir q q' -> extra p q = extra p' q'.
Proof.
  intros P Q. destruct (dir_coords p p' P) as (X & Y & Z). destruct (dir_coords q q' Q) as (X' & Y' & Z').
  unfold extra. rewrite !out_diurnal_form, !out_semidiurnal_form, !lat_diurnal_form, !lat_semidiurnal_form. cbv zeta. rewrite !lq_poly, !tq2_poly, !uq2_poly, !lq2_poly, (tq_dir _ _ p p' P), (uq_dir _ _ p p' P), X, Y, Z, X', Y', Z'. reflexivity.
Qed.
Lemma strength_dir n Re k q q' : same_dir q q' -> strength n Re k q = strength n Re k q'.
Proof. intros (E & _). unfold strength. rewrite E. reflexivity. Qed.

(** ** step 2 *)
Definition row_of (l : line) : table7 := mkT7 (of_code (code l)) (rip l) (rop l) (tip l) (top l).
Lemma diurnal_form p th l : diurnal p th l = let a := th (of_code (code l)) in
  vsum [vmul (amp (tip l)) (tq (cos a) (- sin a) p); vmul (amp (top l)) (tq (- sin a) (- cos a) p); vmul (amp (rip l)) (uq (cos a) (- sin a) p); vmul (amp (rop l)) (uq (- sin a) (- cos a) p)].
Proof.
  unfold diurnal, tq, uq, vsum, fold_right. cbv zeta. rewrite !sin2, !cos2, !sin_plus, !cos_plus. unfold v0. flat. apply v3_eq; cbn [p1 p2 p3]; ring.
Qed.
Lemma diurnal_dir p q th l : same_dir p q -> diurnal p th l = diurnal q th l.
Proof. intros S. rewrite !diurnal_form. cbv zeta. rewrite !(tq_dir _ _ p q S), !(uq_dir _ _ p q S). reflexivity. Qed.
Lemma long_poly p a b : local p 0 (a * sin (2 * latitude p)) b = vplus (vmul (2 * a) (mk3 (- (pz p * pz p * px p)) (- (pz p * pz p * py p)) (pz p * (1 - pz p * pz p)))) (vmul b (mk3 (px p) (py p) (pz p))).
Proof. poly p. Qed.
Lemma long_dir p q th l : same_dir p q -> long_period p th l = long_period q th l.
Proof.
  intros S. destruct (dir_coords p q S) as (X & Y & Z). unfold long_period. cbv zeta. rewrite !long_poly, X, Y, Z. destruct S as (_ & -> & _). reflexivity.
Qed.
Lemma frequency_dir p q th a b : same_dir p q -> frequency_part p th a b = frequency_part q th a b.
Proof.
  intros S. unfold frequency_part. f_equal; f_equal; apply map_ext; intros l; [apply diurnal_dir, S|apply long_dir, S].
Qed.
