From Coq Require Import Reals ZArith List Bool Lia Lra.
From Verif Require Import Base StorageModel StorageSpec MatrixModel MatrixSpec DoodsonModel DoodsonArgModel DoodsonArgSpec DoodsonArgProofs Angles.
From Verif Require Import TideModel TideSpec TideProofs TideProofs2 PoleModel PoleSpec PoleProofs Poly AlfSpec FundModel FundSpec FundProofs Vec RotModel RotProofs SolidModel SolidSpec.
Import ListNotations.
Open Scope R_scope.

(** ** Legendre functions of degrees two and three *)
Ltac leg := unfold legendre, rod; cbv [iterate Nat.add ppow pmul pscale map padd pd peval fold_right]; cbn [fact Nat.mul Nat.add pow INR]; field.
Lemma leg20 x : legendre 2 0 x = (3 * (x * x) - 1) / 2. Proof. leg. Qed.
Lemma leg21 x : legendre 2 1 x = 3 * x. Proof. leg. Qed.
Lemma leg22 x : legendre 2 2 x = 3. Proof. leg. Qed.
Lemma leg30 x : legendre 3 0 x = x * (5 * (x * x) - 3) / 2. Proof. leg. Qed.
Lemma leg31 x : legendre 3 1 x = 3 / 2 * (5 * (x * x) - 1). Proof. leg. Qed.
Lemma leg32 x : legendre 3 2 x = 15 * x. Proof. leg. Qed.
Lemma leg33 x : legendre 3 3 x = 15. Proof. leg. Qed.
Ltac nrm := unfold norm; cbn [Nat.eqb]; apply f_equal; cbn [fact Nat.mul Nat.add Nat.sub INR]; field.
Lemma norm20 : norm 2 0 = sqrt 5. Proof. nrm. Qed.
Lemma norm21 : norm 2 1 = sqrt (5 / 3). Proof. nrm. Qed.
Lemma norm22 : norm 2 2 = sqrt (5 / 12). Proof. nrm. Qed.
Lemma norm30 : norm 3 0 = sqrt 7. Proof. nrm. Qed.
Lemma norm31 : norm 3 1 = sqrt (7 / 6). Proof. nrm. Qed.
Lemma norm32 : norm 3 2 = sqrt (7 / 60). Proof. nrm. Qed.
Lemma norm33 : norm 3 3 = sqrt (14 / 720). Proof. nrm. Qed.
Lemma half : 0.5 = 1 / 2. Proof. lra. Qed.
Ltac pbar := unfold Pbar; cbn [pow].
Lemma pbar20 l : Pbar 2 0 l = P20 (sin l). Proof. pbar. rewrite leg20, norm20. unfold P20. rewrite half. field. Qed.
Lemma pbar21 l : Pbar 2 1 l = P21 (sin l) (cos l). Proof. pbar. rewrite leg21, norm21. unfold P21. ring. Qed.
Lemma pbar22 l : Pbar 2 2 l = P22 (cos l). Proof. pbar. rewrite leg22, norm22. unfold P22. ring. Qed.
Lemma pbar30 l : Pbar 3 0 l = P30 (sin l). Proof. pbar. rewrite leg30, norm30. unfold P30. rewrite half. field. Qed.
Lemma pbar31 l : Pbar 3 1 l = P31 (sin l) (cos l). Proof. pbar. rewrite leg31, norm31. unfold P31. ring. Qed.
Lemma pbar32 l : Pbar 3 2 l = P32 (sin l) (cos l). Proof. pbar. rewrite leg32, norm32. unfold P32. ring. Qed.
Lemma pbar33 l : Pbar 3 3 l = P33 (cos l). Proof. pbar. rewrite leg33, norm33. unfold P33. ring. Qed.

(** ** multiple angles *)
Lemma sc x : sin x * sin x + cos x * cos x = 1.
Proof. pose proof (sin2_cos2 x) as H. unfold Rsqr in H. exact H. Qed.
Lemma cos_2l x : cos (2 * x) = c2l (cos x) (sin x). Proof. unfold c2l. apply cos_2a. Qed.
Lemma sin_2l x : sin (2 * x) = s2l (cos x) (sin x). Proof. unfold s2l. rewrite sin_2a. ring. Qed.
Lemma cos_3l x : cos (3 * x) = c3l (cos x).
Proof.
  replace (3 * x) with (2 * x + x) by ring. rewrite cos_plus, cos_2a, sin_2a. unfold c3l. pose proof (sc x).
  assert (S : sin x * sin x = 1 - cos x * cos x) by lra.
  replace ((cos x * cos x - sin x * sin x) * cos x - 2 * sin x * cos x * sin x) with (cos x * cos x * cos x - 3 * cos x * (sin x * sin x)) by ring.
  rewrite S. ring.
Qed.
Lemma sin_3l x : sin (3 * x) = s3l (sin x).
Proof.
  replace (3 * x) with (2 * x + x) by ring. rewrite sin_plus, cos_2a, sin_2a. unfold s3l. pose proof (sc x).
  assert (S : cos x * cos x = 1 - sin x * sin x) by lra.
  replace (2 * sin x * cos x * cos x + (cos x * cos x - sin x * sin x) * sin x) with (3 * sin x * (cos x * cos x) - sin x * sin x * sin x) by ring.
  rewrite S. ring.
Qed.

(** ** spherical coordinates *)
Definition to_place (s : sph) : place := mkPl (sr s) (slat s) (slon s).
Lemma len_position r l k : 0 < r -> len (position r l k) = r.
Proof.
  intros H. unfold len, dot, position. cbn [p1 p2 p3].
  replace (_ + _) with (r * r).
  - apply sqrt_square. lra.
  - pose proof (sc l). pose proof (sc k).
    replace (r * (cos l * cos k) * (r * (cos l * cos k)) + r * (cos l * sin k) * (r * (cos l * sin k)) + r * sin l * (r * sin l))
      with (r * r * (cos l * cos l * (sin k * sin k + cos k * cos k) + sin l * sin l)) by ring.
    rewrite H1. replace (cos l * cos l * 1 + sin l * sin l) with 1 by lra. ring.
Qed.
Lemma sqrt_sum_zero x y : sqrt (x * x + y * y) = 0 -> x = 0 /\ y = 0.
Proof. intros E. apply sqrt_eq_0 in E; [|nra]. split; nra. Qed.
Lemma spherical_at v : v <> v0 -> is_at v (to_place (cartesian2spherical v)).
Proof.
  intros N. destruct v as [x y z]. unfold is_at, to_place, cartesian2spherical. cbn [sr slat slon radius latitude longitude p1 p2 p3].
  set (q := sqrt (x * x + y * y)). assert (Q0 : 0 <= q) by apply sqrt_pos.
  assert (Q2 : q * q = x * x + y * y) by (apply sqrt_sqrt; nra).
  assert (D : 0 < q * q + z * z).
  { rewrite Q2. destruct (Req_dec x 0) as [->|?]; [|nra]. destruct (Req_dec y 0) as [->|?]; [|nra]. destruct (Req_dec z 0) as [->|?]; [|nra]. exfalso. apply N. reflexivity. }
  assert (L : len (mk3 x y z) = sqrt (q * q + z * z)). { unfold len, dot. cbn. apply f_equal. rewrite Q2. ring. }
  destruct (atan2_spec q z D) as [E1 E2]. rewrite <- L in E1, E2.
  split; [rewrite L; apply sqrt_lt_R0, D|]. unfold position.
  set (r := len (mk3 x y z)) in *. set (a := atan2 z q) in *.
  destruct (Rle_lt_or_eq_dec 0 q Q0) as [P|Z].
  - assert (P2 : 0 < x * x + y * y) by (rewrite <- Q2; nra). destruct (atan2_spec x y P2) as [E3 E4]. fold q in E3, E4. set (b := atan2 y x) in *.
    apply v3_eq; cbn; [| |exact E2].
    + rewrite <- Rmult_assoc, <- E1. exact E3.
    + rewrite <- Rmult_assoc, <- E1. exact E4.
  - symmetry in Z. destruct (sqrt_sum_zero x y Z) as [X Y]. rewrite Z in E1.
    apply v3_eq; cbn; [| |exact E2].
    + rewrite <- Rmult_assoc, <- E1. lra.
    + rewrite <- Rmult_assoc, <- E1. lra.
Qed.
(** the cosines of direction decide *)
Lemma same_direction v p q : is_at v p -> is_at v q ->
  radius p = radius q /\ sin (latitude p) = sin (latitude q) /\
  cos (latitude p) * cos (longitude p) = cos (latitude q) * cos (longitude q) /\
  cos (latitude p) * sin (longitude p) = cos (latitude q) * sin (longitude q).
Proof.
  intros [H1 E1] [H2 E2]. assert (Rq : radius p = radius q).
  { rewrite <- (len_position (radius p) (latitude p) (longitude p) H1), <- E1, E2. apply len_position, H2. }
  split; [exact Rq|]. rewrite E1 in E2. unfold position in E2. injection E2 as A B D. rewrite Rq in *.
  split; [|split]; apply (Rmult_eq_reg_l (radius q)); lra.
Qed.
