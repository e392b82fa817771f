From Coq Require Import Reals ZArith List Bool Lia Lra.
From Verif Require Import Base StorageModel StorageSpec MatrixModel MatrixSpec DoodsonModel DoodsonArgModel DoodsonArgSpec DoodsonArgProofs Angles.
From Verif Require Import TideModel TideSpec TideProofs TideProofs2 PoleModel PoleSpec PoleProofs Poly AlfSpec FundModel FundSpec FundProofs Vec RotModel RotProofs SolidModel SolidSpec SolidProofs.
Import ListNotations.
Open Scope R_scope.

(** ** one body *)
Lemma zero_list (l : list R) : length l = 12%nat -> map (fun _ => 0) l = [0; 0; 0; 0; 0; 0; 0; 0; 0; 0; 0; 0].
Proof. intros H. do 12 (destruct l as [|? l]; [discriminate H|cbn in H; apply eq_add_S in H]). destruct l; [reflexivity|discriminate H]. Qed.
(** C20 C21 C22 C30 ... C44 and S20 S21 ... S44 *)
Fixpoint sums (a : list R) (b : list R) : list R := match a, b with x :: a', y :: b' => x + y :: sums a' b' | _, _ => [] end.
Definition bodyC K Re k p := map (fun x => deltaC (body K Re k p (fst x) (snd x))) slots.
Definition bodyS K Re k p := map (fun x => deltaS (body K Re k p (fst x) (snd x))) slots.
Lemma transform_sums fac a : forall b c, length b = length a -> Forall2 (fun x y => x * fac = y) a c -> transform fac a b = sums b c.
Proof. induction a as [|x a IH]; intros [|y b] c H F; try discriminate; inversion F; subst; cbn; [reflexivity|]. f_equal. apply IH; auto. Qed.
Lemma inr0 : INR 0 = 0. Proof. reflexivity. Qed.
Lemma inr1 : INR 1 = 1. Proof. reflexivity. Qed.
Lemma inr2 : INR 2 = 2. Proof. cbn. ring. Qed.
Lemma inr3 : INR 3 = 3. Proof. cbn. ring. Qed.
Lemma inr5 : INR 5 = 5. Proof. cbn. ring. Qed.
Lemma inr7 : INR 7 = 7. Proof. cbn. ring. Qed.
Ltac body_open :=
  unfold deltaC, deltaS, body, cscale, cmul, cis; cbn [fst snd kk kplus anelastic elastic Nat.add Nat.mul Nat.leb];
  rewrite ?inr0, ?inr1, ?inr2, ?inr3, ?inr5, ?inr7, ?pbar20, ?pbar21, ?pbar22, ?pbar30, ?pbar31, ?pbar32, ?pbar33, ?cos_neg, ?sin_neg,
    ?cos_2l, ?sin_2l, ?cos_3l, ?sin_3l, ?Rmult_0_l, ?cos_0, ?sin_0, ?Rmult_1_l.
Ltac facts := match goal with |- context [?Re / sr ?b] => set (q := Re / sr b) end.
Lemma anelastic_body Re k v dC dS : length dC = 12%nat -> length dS = 12%nat ->
  anelastic_tb Re k v dC dS = (sums dC (bodyC anelastic Re k (to_place (cartesian2spherical v))), sums dS (bodyS anelastic Re k (to_place (cartesian2spherical v)))).
Proof.
  intros HC HS. unfold anelastic_tb. set (b := cartesian2spherical v). set (p := to_place b).
  f_equal; apply transform_sums; try (rewrite ?HC, ?HS; reflexivity); unfold bodyC, bodyS, slots; cbn [map fst snd];
    repeat (apply Forall2_cons; [body_open; cbn [radius latitude longitude p to_place]; try facts; first [ring | field] |]); apply Forall2_nil.
Qed.
Lemma elastic_body Re k v dC dS : length dC = 12%nat -> length dS = 12%nat ->
  elastic_tb Re k v dC dS = (sums dC (bodyC elastic Re k (to_place (cartesian2spherical v))), sums dS (bodyS elastic Re k (to_place (cartesian2spherical v)))).
Proof.
  intros HC HS. unfold elastic_tb. set (b := cartesian2spherical v). set (p := to_place b).
  f_equal; apply transform_sums; try (rewrite ?HC, ?HS; reflexivity); unfold bodyC, bodyS, slots; cbn [map fst snd];
    repeat (apply Forall2_cons; [body_open; cbn [radius latitude longitude p to_place]; try facts; first [ring | field] |]); apply Forall2_nil.
Qed.

(** ** only the direction matters *)
Definition same_dir (p q : place) : Prop :=
  radius p = radius q /\ sin (latitude p) = sin (latitude q) /\
  cos (latitude p) * cos (longitude p) = cos (latitude q) * cos (longitude q) /\
  cos (latitude p) * sin (longitude p) = cos (latitude q) * sin (longitude q).
Lemma pow2_c l k : cos l * cos l * c2l (cos k) (sin k) = (cos l * cos k) * (cos l * cos k) - (cos l * sin k) * (cos l * sin k).
Proof. unfold c2l. ring. Qed.
Lemma pow2_s l k : cos l * cos l * s2l (cos k) (sin k) = 2 * (cos l * cos k) * (cos l * sin k).
Proof. unfold s2l. ring. Qed.
Lemma pow3_c l k : cos l * cos l * cos l * c3l (cos k) = (cos l * cos k) * ((cos l * cos k) * (cos l * cos k) - 3 * ((cos l * sin k) * (cos l * sin k))).
Proof. unfold c3l. pose proof (sc k). assert (S : sin k * sin k = 1 - cos k * cos k) by lra.
  transitivity (cos l * cos l * cos l * (cos k * cos k * cos k - 3 * cos k * (sin k * sin k))); [rewrite S; ring|ring]. Qed.
Lemma pow3_s l k : cos l * cos l * cos l * s3l (sin k) = (cos l * sin k) * (3 * ((cos l * cos k) * (cos l * cos k)) - (cos l * sin k) * (cos l * sin k)).
Proof. unfold s3l. pose proof (sc k). assert (S : cos k * cos k = 1 - sin k * sin k) by lra.
  transitivity (cos l * cos l * cos l * (3 * sin k * (cos k * cos k) - sin k * sin k * sin k)); [rewrite S; ring|ring]. Qed.
Lemma harm_value2 p : let z := sin (latitude p) in let x := cos (latitude p) * cos (longitude p) in let y := cos (latitude p) * sin (longitude p) in
  harm 2 0 p = (P20 z, 0) /\ harm 2 1 p = (sqrt (5 / 3) * 3 * z * x, sqrt (5 / 3) * 3 * z * y) /\
  harm 2 2 p = (sqrt (5 / 12) * 3 * (x * x - y * y), sqrt (5 / 12) * 3 * (2 * x * y)).
Proof.
  cbv zeta. unfold harm. rewrite inr0, inr1, inr2, pbar20, pbar21, pbar22, Rmult_0_l, cos_0, sin_0, Rmult_1_l, cos_2l, sin_2l. unfold P21, P22.
  split; [|split]; apply f_equal2; try ring.
  - rewrite <- pow2_c. ring.
  - rewrite <- pow2_s. ring.
Qed.
Lemma harm_value3 p : let z := sin (latitude p) in let x := cos (latitude p) * cos (longitude p) in let y := cos (latitude p) * sin (longitude p) in
  harm 3 0 p = (P30 z, 0) /\ harm 3 1 p = (3 / 2 * (5 * (z * z) - 1) * sqrt (7 / 6) * x, 3 / 2 * (5 * (z * z) - 1) * sqrt (7 / 6) * y) /\
  harm 3 2 p = (15 * sqrt (7 / 60) * z * (x * x - y * y), 15 * sqrt (7 / 60) * z * (2 * x * y)) /\
  harm 3 3 p = (15 * sqrt (14 / 720) * (x * (x * x - 3 * (y * y))), 15 * sqrt (14 / 720) * (y * (3 * (x * x) - y * y))).
Proof.
  cbv zeta. unfold harm. rewrite inr0, inr1, inr2, inr3, pbar30, pbar31, pbar32, pbar33, Rmult_0_l, cos_0, sin_0, Rmult_1_l, cos_2l, sin_2l, cos_3l, sin_3l. unfold P31, P32, P33.
  split; [|split; [|split]]; apply f_equal2; try ring.
  - rewrite <- pow2_c. ring.
  - rewrite <- pow2_s. ring.
  - rewrite <- pow3_c. ring.
  - rewrite <- pow3_s. ring.
Qed.
Lemma harm_dir p q n m : same_dir p q -> (n = 2 \/ n = 3)%nat -> (m <= n)%nat -> harm n m p = harm n m q.
Proof.
  intros (_ & Z & X & Y) Hn Hm. destruct (harm_value2 p) as (A & B & D). destruct (harm_value2 q) as (A' & B' & D').
  destruct (harm_value3 p) as (E & F & G & H). destruct (harm_value3 q) as (E' & F' & G' & H').
  cbv zeta in A, B, D, E, F, G, H, A', B', D', E', F', G', H'. rewrite ?Z, ?X, ?Y in A. rewrite ?Z, ?X, ?Y in B. rewrite ?Z, ?X, ?Y in D.
  rewrite ?Z, ?X, ?Y in E. rewrite ?Z, ?X, ?Y in F. rewrite ?Z, ?X, ?Y in G. rewrite ?Z, ?X, ?Y in H.
  destruct Hn as [-> | ->]; do 4 (destruct m as [|m]; [first [congruence | lia]|]); lia.
Qed.
Lemma body_harm23 K Re k p n m : (n = 2 \/ n = 3)%nat -> body K Re k p n m =
  cscale (k * (Re / radius p) ^ (n + 1) / INR (2 * n + 1)) (cmul (kk K n m) (fst (harm n m p), - snd (harm n m p))).
Proof.
  intros Hn. unfold body, harm, cscale, cmul, cis. rewrite cos_neg, sin_neg. cbn [fst snd].
  destruct Hn as [-> | ->]; apply f_equal2; unfold Rdiv; ring.
Qed.
Lemma body_harm4 K Re k p m : (m <= 2)%nat -> body K Re k p 4 m = cscale (kplus K m / 5 * k * (Re / radius p) ^ 3) (fst (harm 2 m p), - snd (harm 2 m p)).
Proof.
  intros Hm. unfold body, harm, cscale, cis. rewrite cos_neg, sin_neg. cbn [fst snd]. destruct (Nat.leb_spec m 2); [|lia]. apply f_equal2; ring.
Qed.
Lemma body_dir K Re k p q n m : same_dir p q -> (m <= n)%nat -> body K Re k p n m = body K Re k q n m.
Proof.
  intros S Hm. assert (E : radius p = radius q) by apply S.
  destruct (Nat.eq_dec n 2) as [->|N2]; [|destruct (Nat.eq_dec n 3) as [->|N3]; [|destruct (Nat.eq_dec n 4) as [->|N4]]].
  - rewrite !body_harm23 by auto. rewrite E, (harm_dir p q 2 m S) by auto. reflexivity.
  - rewrite !body_harm23 by auto. rewrite E, (harm_dir p q 3 m S) by auto. reflexivity.
  - destruct (le_lt_dec m 2) as [L|L].
    + rewrite !body_harm4 by exact L. rewrite E, (harm_dir p q 2 m S) by (auto; lia). reflexivity.
    + unfold body. destruct (Nat.leb_spec m 2); [lia|reflexivity].
  - unfold body. destruct n as [|[|[|[|[|n]]]]]; try reflexivity; congruence.
Qed.

(** ** both bodies *)
Lemma step1_ok Re ks km moon sun pm ps dC dS : length dC = 12%nat -> length dS = 12%nat -> is_at moon pm -> is_at sun ps ->
  potential_step1 Re ks km moon sun dC dS =
  (map (fun x => deltaC (step1 anelastic Re ks km ps pm (fst x) (snd x))) slots, map (fun x => deltaS (step1 anelastic Re ks km ps pm (fst x) (snd x))) slots).
Proof.
  intros HC HS Am As. unfold potential_step1. rewrite (zero_list dC HC), (zero_list dS HS). cbn [fst snd].
  assert (Nm : moon <> v0) by (destruct Am as [P E]; intros Z; rewrite Z in E; pose proof (len_position _ (latitude pm) (longitude pm) P) as L; rewrite <- E in L;
    unfold len, dot, v0 in L; cbn in L; replace (0 * 0 + 0 * 0 + 0 * 0) with 0 in L by ring; rewrite sqrt_0 in L; lra).
  assert (Ns : sun <> v0) by (destruct As as [P E]; intros Z; rewrite Z in E; pose proof (len_position _ (latitude ps) (longitude ps) P) as L; rewrite <- E in L;
    unfold len, dot, v0 in L; cbn in L; replace (0 * 0 + 0 * 0 + 0 * 0) with 0 in L by ring; rewrite sqrt_0 in L; lra).
  rewrite !anelastic_body by reflexivity. cbn [fst snd].
  set (qs := to_place (cartesian2spherical sun)). set (qm := to_place (cartesian2spherical moon)).
  assert (Ds : same_dir qs ps) by (apply (same_direction sun); [apply spherical_at, Ns|exact As]).
  assert (Dm : same_dir qm pm) by (apply (same_direction moon); [apply spherical_at, Nm|exact Am]).
  unfold bodyC, bodyS, slots; cbn [map fst snd sums].
  rewrite !(body_dir anelastic Re ks qs ps) by (auto; lia). rewrite !(body_dir anelastic Re km qm pm) by (auto; lia).
  unfold step1, deltaC, deltaS, cadd. cbn [fst snd].
  f_equal; repeat (apply f_equal2; [ring|]); reflexivity.
Qed.

(** ** step 2 *)
Definition wterm (theta : doodson -> R) (w : step2_wave) : C := cmul (IZR (ampInPhase w) / 10, IZR (ampOutOfPhase w) / 10) (cis (theta (mdn w))).
Definition wsum (theta : doodson -> R) (k : Z) (l : list step2_wave) : C := csum (map (wterm theta) (filter (fun w => (n0 (mdn w) =? k)%Z) l)).
Lemma wsum_cons theta k w l : wsum theta k (w :: l) = if (n0 (mdn w) =? k)%Z then cadd (wterm theta w) (wsum theta k l) else wsum theta k l.
Proof. unfold wsum. cbn [filter]. destruct (n0 (mdn w) =? k)%Z; reflexivity. Qed.
Lemma fold_step2 f l : forall o, let th := fun d => argument d f in let r := fold_left (step2_add f) l o in
  oC20 r = oC20 o + fst (wsum th 0 l) /\ oC21 r = oC21 o + snd (wsum th 1 l) /\ oS21 r = oS21 o + fst (wsum th 1 l) /\
  oC22 r = oC22 o + fst (wsum th 2 l) /\ oS22 r = oS22 o - snd (wsum th 2 l).
Proof.
  induction l as [|w l IH]; intros o th r.
  - unfold r, wsum. cbn. repeat split; ring.
  - unfold r. cbn [fold_left]. destruct (IH (step2_add f o w)) as (E1 & E2 & E3 & E4 & E5). rewrite E1, E2, E3, E4, E5. clear.
    fold th. rewrite !wsum_cons. unfold step2_add.
    destruct (Z.eqb_spec (n0 (mdn w)) 1) as [H|H1]; [rewrite ?H|destruct (Z.eqb_spec (n0 (mdn w)) 0) as [H|H0]; [rewrite ?H|destruct (Z.eqb_spec (n0 (mdn w)) 2) as [H|H2]; [rewrite ?H|]]];
      cbn [Z.eqb Pos.eqb oC20 oC21 oS21 oC22 oS22]; unfold cadd, wterm, cmul, cis, th; cbn [fst snd]; repeat split; ring.
Qed.
Definition wave_of (x : Z * (Z * Z)) : step2_wave := mkW (of_code (fst x)) (fst (snd x)) (snd (snd x)).
Lemma table_ok : filter (fun w => (n0 (mdn w) =? 0)%Z) Step2 = map wave_of table_b /\ filter (fun w => (n0 (mdn w) =? 1)%Z) Step2 = map wave_of table_a /\
  filter (fun w => (n0 (mdn w) =? 2)%Z) Step2 = map wave_of table_c.
Proof. repeat split. Qed.
Lemma csum_scale k l : csum (map (cscale k) l) = cscale k (csum l).
Proof. induction l as [|x l IH]; cbn; [unfold cscale; cbn; apply f_equal2; ring|]. fold (csum l). fold (csum (map (cscale k) l)). rewrite IH. unfold cadd, cscale. cbn. apply f_equal2; ring. Qed.
Lemma wsum_table theta k t : filter (fun w => (n0 (mdn w) =? k)%Z) Step2 = map wave_of t ->
  cscale 1e-12 (wsum theta k Step2) = csum (map (fun x => cmul (IZR (fst (snd x)) * 1e-13, IZR (snd (snd x)) * 1e-13) (cis (theta (of_code (fst x))))) t).
Proof.
  intros E. unfold wsum. rewrite E, <- csum_scale, !map_map. apply f_equal, map_ext. intros (c & i & o). unfold wterm, wave_of, cscale, cmul. cbn [mdn ampInPhase ampOutOfPhase fst snd].
  replace 1e-13 with (1e-12 / 10) by lra. apply f_equal2; field.
Qed.
Lemma csum_ext theta theta' t : (forall d, cos (theta d) = cos (theta' d) /\ sin (theta d) = sin (theta' d)) ->
  csum (map (fun x : Z * (Z * Z) => cmul (IZR (fst (snd x)) * 1e-13, IZR (snd (snd x)) * 1e-13) (cis (theta (of_code (fst x))))) t) =
  csum (map (fun x => cmul (IZR (fst (snd x)) * 1e-13, IZR (snd (snd x)) * 1e-13) (cis (theta' (of_code (fst x))))) t).
Proof. intros H. apply f_equal, map_ext. intros x. unfold cis. destruct (H (of_code (fst x))) as [-> ->]. reflexivity. Qed.
Lemma phase_ok F tt ut1 d : let a := argument d (delaunay2doodson F (gmst tt ut1)) in let b := phase F (julian_date (mjd tt)) (julian_date (mjd ut1)) d in
  cos a = cos b /\ sin a = sin b.
Proof.
  cbv zeta. destruct (cos_argument d F (gmst tt ut1)) as [-> ->]. unfold phase, iers_argument.
  assert (E : forall c, eqm (IZR (n0 d) * (gmst tt ut1 + PI) - c) (IZR (n0 d) * (sidereal_time (julian_date (mjd tt)) (julian_date (mjd ut1)) + PI) - c)).
  { intros c. apply eqm_sub; [|apply eqm_refl]. rewrite !(Rmult_comm (IZR (n0 d))). apply eqm_scale. apply eqm_add; [apply gmst_eqm|apply eqm_refl]. }
  split; [apply eqm_cos, E|apply eqm_sin, E].
Qed.
Lemma step2_ok F tt ut1 : let th := phase F (julian_date (mjd tt)) (julian_date (mjd ut1)) in let r := potential_step2 tt ut1 F in
  oC20 r = deltaC (step2 th 2 0) /\ oC21 r = deltaC (step2 th 2 1) /\ oS21 r = deltaS (step2 th 2 1) /\ oC22 r = deltaC (step2 th 2 2) /\ oS22 r = deltaS (step2 th 2 2).
Proof.
  cbv zeta. unfold potential_step2. cbn [oC20 oC21 oS21 oC22 oS22]. set (f := delaunay2doodson F (gmst tt ut1)).
  destruct (fold_step2 f Step2 (mkO 0 0 0 0 0)) as (E1 & E2 & E3 & E4 & E5). rewrite E1, E2, E3, E4, E5. clear E1 E2 E3 E4 E5. cbn [oC20 oC21 oS21 oC22 oS22].
  destruct table_ok as (T0 & T1 & T2). set (th := fun d => argument d f).
  pose proof (wsum_table th 0 _ T0) as W0. pose proof (wsum_table th 1 _ T1) as W1. pose proof (wsum_table th 2 _ T2) as W2.
  rewrite (csum_ext th (phase F (julian_date (mjd tt)) (julian_date (mjd ut1))) _ (phase_ok F tt ut1)) in W0.
  rewrite (csum_ext th (phase F (julian_date (mjd tt)) (julian_date (mjd ut1))) _ (phase_ok F tt ut1)) in W1.
  rewrite (csum_ext th (phase F (julian_date (mjd tt)) (julian_date (mjd ut1))) _ (phase_ok F tt ut1)) in W2.
  unfold step2, band, deltaC, deltaS. cbn [table]. rewrite <- W0, <- W1, <- W2. clear W0 W1 W2 T0 T1 T2. generalize (wsum th 0 Step2), (wsum th 1 Step2), (wsum th 2 Step2). intros (a & b) (c & d) (e & g).
  unfold cmul, eta, cscale. cbn [fst snd]. repeat apply conj; ring.
Qed.

(** ** placement *)
Close Scope R_scope.
Open Scope Z_scope.
Definition written (c : bool) (xs : list (bool * Z * Z * R)) (f : Z -> Z -> cell R) : Z -> Z -> cell R :=
  fold_left (fun f x => let '(b, i, j, v) := x in if Bool.eqb b c then (fun n k => if (n =? i) && (k =? j) then Some v else f n k) else f) xs f.
Lemma framed_only h p m h' : (m = mC p \/ m = mS p) -> framed h m h' -> only_acc h p h'.
Proof. intros [-> | ->] F x V A B; apply F; assumption. Qed.
Lemma assign_ok d p xs : apart (mC p) (mS p) -> apart (mS p) (mC p) ->
  (forall c n m v, In (c, n, m, v) xs -> 0 <= m <= n /\ n <= d) -> forall h fC fS, pair_sized h d p -> shows h d (mC p) fC -> shows h d (mS p) fS ->
  exists h', fold_res (assign p) xs h = Ok h' /\ pair_sized h' d p /\ only_acc h p h' /\ shows h' d (mC p) (written true xs fC) /\ shows h' d (mS p) (written false xs fS).
Proof.
  intros A1 A2. induction xs as [|(((c & n) & m) & v) xs IH]; intros Hx h fC fS (PC & PS) SC SS.
  - exists h. cbn. split; [reflexivity|]. split; [split; assumption|]. split; [apply only_refl|]. split; assumption.
  - destruct (Hx c n m v (or_introl eq_refl)) as [Hm Hn]. cbn [fold_res assign].
    destruct c.
    + destruct (put_ok h d (mC p) n m (Some v) fC PC Hm Hn SC) as (h1 & E & P1 & F1 & S1). rewrite E. cbn [bind].
      destruct (IH (fun c' n' m' v' H => Hx c' n' m' v' (or_intror H)) h1 (fun a k => if (a =? n) && (k =? m) then Some v else fC a k) fS) as (h2 & E2 & P2 & O2 & S2 & S3); [split; [exact P1|apply (framed_sized h (mC p)); assumption]|exact S1|apply (framed_shows h (mC p)); assumption|].
      exists h2. split; [exact E2|]. split; [exact P2|]. split; [apply (only_trans h h1); [apply (framed_only h p (mC p)); auto|exact O2]|]. split; assumption.
    + destruct (put_ok h d (mS p) n m (Some v) fS PS Hm Hn SS) as (h1 & E & P1 & F1 & S1). rewrite E. cbn [bind].
      destruct (IH (fun c' n' m' v' H => Hx c' n' m' v' (or_intror H)) h1 fC (fun a k => if (a =? n) && (k =? m) then Some v else fS a k)) as (h2 & E2 & P2 & O2 & S2 & S3); [split; [apply (framed_sized h (mS p)); assumption|exact P1]|apply (framed_shows h (mS p)); assumption|exact S1|].
      exists h2. split; [exact E2|]. split; [exact P2|]. split; [apply (only_trans h h1); [apply (framed_only h p (mS p)); auto|exact O2]|]. split; assumption.
Qed.
Definition result (o : solid) (pm ps : place) (F : delaunay) (tt ut1 : epoch) (n m : Z) : C :=
  total anelastic (mRe o) (mSEratio o) (mMEratio o) ps pm (phase F (julian_date (mjd tt)) (julian_date (mjd ut1))) (Z.to_nat n) (Z.to_nat m).
Lemma deltaC_add x y : deltaC (cadd x y) = (deltaC x + deltaC y)%R. Proof. reflexivity. Qed.
Lemma deltaS_add x y : deltaS (cadd x y) = (deltaS x + deltaS y)%R. Proof. unfold deltaS, cadd. cbn. ring. Qed.
Lemma zero_S0 K Re ks km ps pm th n : deltaS (total K Re ks km ps pm th n 0) = (- (snd (step1 K Re ks km ps pm n 0)))%R.
Proof. unfold total, deltaS, cadd, step2. destruct n as [|[|[|n]]]; cbn; ring. Qed.
Lemma step1_low K Re ks km ps pm n m : (n < 2)%nat -> step1 K Re ks km ps pm n m = (0, 0)%R.
Proof. intros H. unfold step1, cadd. destruct n as [|[|n]]; [| |lia]; cbn; apply f_equal2; ring. Qed.
Lemma body_S0 Re k p n : snd (body anelastic Re k p n 0) = 0%R.
Proof.
  unfold body. destruct n as [|[|[|[|[|n]]]]]; try reflexivity; unfold cscale, cmul, cis; cbn [fst snd kk anelastic Nat.leb]; rewrite inr0, Rmult_0_l, Ropp_0, sin_0, ?cos_0; ring.
Qed.
Lemma step1_S0 Re ks km ps pm n : snd (step1 anelastic Re ks km ps pm n 0) = 0%R.
Proof. unfold step1, cadd. cbn [snd]. rewrite !body_S0. ring. Qed.
(** values at the 21 assigned places, zero elsewhere *)
Lemma placed (a b : nat -> nat -> C) : (forall n m, (n < 2)%nat -> a n m = (0, 0)%R) -> (forall n, snd (a n 0%nat) = 0%R) ->
  (forall n m, n <> 2%nat -> b n m = (0, 0)%R) -> snd (b 2%nat 0%nat) = 0%R ->
  let C := fun n m : Z => deltaC (a (Z.to_nat n) (Z.to_nat m)) in let S := fun n m : Z => deltaS (a (Z.to_nat n) (Z.to_nat m)) in
  let C2 := fun n m : Z => (C n m + deltaC (b (Z.to_nat n) (Z.to_nat m)))%R in let S2 := fun n m : Z => (S n m + deltaS (b (Z.to_nat n) (Z.to_nat m)))%R in
  let xs := [(true, 2, 0, C2 2 0); (true, 3, 0, C 3 0); (true, 4, 0, C 4 0); (true, 2, 1, C2 2 1); (true, 3, 1, C 3 1); (true, 4, 1, C 4 1);
    (true, 2, 2, C2 2 2); (true, 3, 2, C 3 2); (true, 4, 2, C 4 2); (true, 3, 3, C 3 3); (true, 4, 3, C 4 3); (true, 4, 4, C 4 4);
    (false, 2, 1, S2 2 1); (false, 3, 1, S 3 1); (false, 4, 1, S 4 1); (false, 2, 2, S2 2 2); (false, 3, 2, S 3 2); (false, 4, 2, S 4 2);
    (false, 3, 3, S 3 3); (false, 4, 3, S 4 3); (false, 4, 4, S 4 4)] in
  forall n m, 0 <= m <= n -> n <= 4 ->
    written true xs (fun _ _ => Some 0%R) n m = Some (deltaC (cadd (a (Z.to_nat n) (Z.to_nat m)) (b (Z.to_nat n) (Z.to_nat m)))) /\
    written false xs (fun _ _ => Some 0%R) n m = Some (deltaS (cadd (a (Z.to_nat n) (Z.to_nat m)) (b (Z.to_nat n) (Z.to_nat m)))).
Proof.
  intros A0 AS B0 BS C S C2 S2 xs n m Hm Hn. rewrite deltaC_add, deltaS_add. unfold written, xs. cbn [fold_left Bool.eqb].
  assert (n = 0 \/ n = 1 \/ n = 2 \/ n = 3 \/ n = 4) as D by lia.
  destruct D as [->|[->|[->|[->| ->]]]];
    [assert (m = 0) as D by lia | assert (m = 0 \/ m = 1) as D by lia | assert (m = 0 \/ m = 1 \/ m = 2) as D by lia | assert (m = 0 \/ m = 1 \/ m = 2 \/ m = 3) as D by lia | assert (m = 0 \/ m = 1 \/ m = 2 \/ m = 3 \/ m = 4) as D by lia];
    repeat (destruct D as [->|D]); try (rewrite D); cbn [Z.eqb Pos.eqb andb]; change (Z.to_nat 0) with 0%nat; change (Z.to_nat 1) with 1%nat; change (Z.to_nat 2) with 2%nat; change (Z.to_nat 3) with 3%nat; change (Z.to_nat 4) with 4%nat;
    unfold C2, S2, C, S; change (Z.to_nat 0) with 0%nat; change (Z.to_nat 1) with 1%nat; change (Z.to_nat 2) with 2%nat; change (Z.to_nat 3) with 3%nat; change (Z.to_nat 4) with 4%nat; split; apply f_equal; rewrite ?(A0 0%nat), ?(A0 1%nat) by lia; rewrite ?(B0 0%nat), ?(B0 1%nat), ?(B0 3%nat), ?(B0 4%nat) by lia; unfold deltaC, deltaS; cbn [fst snd]; rewrite ?AS, ?BS; ring.
Qed.
Lemma coeffs_ok h o dC dS tt ut1 moon sun pm ps F : ready h o -> length dC = 12%nat -> length dS = 12%nat -> is_at moon pm -> is_at sun ps ->
  exists h', stokes_coeffs h o dC dS tt ut1 moon sun F = Ok h' /\ ready h' o /\ only_acc h (mcs o) h' /\
    shows h' 4 (mC (mcs o)) (fun n m => Some (deltaC (result o pm ps F tt ut1 n m))) /\
    shows h' 4 (mS (mcs o)) (fun n m => Some (deltaS (result o pm ps F tt ut1 n m))).
Proof.
  intros (P & A1 & A2) HC HS Am As. unfold stokes_coeffs. rewrite (step1_ok _ _ _ moon sun pm ps dC dS HC HS Am As). cbn [fst snd].
  destruct (step2_ok F tt ut1) as (E1 & E2 & E3 & E4 & E5). rewrite E1, E2, E3, E4, E5. clear E1 E2 E3 E4 E5.
  destruct (clear_ok 0%R h 4 (mcs o) P A1 A2) as (h1 & E & P1 & O1 & S1 & S2). rewrite E. cbn [bind].
  unfold result, total.
  pose proof (placed (step1 anelastic (mRe o) (mSEratio o) (mMEratio o) ps pm) (step2 (phase F (julian_date (mjd tt)) (julian_date (mjd ut1)))) (step1_low _ _ _ _ _ _) (step1_S0 _ _ _ _ _)) as PL.
  assert (B0 : forall n m, n <> 2%nat -> step2 (phase F (julian_date (mjd tt)) (julian_date (mjd ut1))) n m = (0, 0)%R).
  { intros n m Hn. destruct n as [|[|[|n]]]; try reflexivity. congruence. }
  specialize (PL B0 eq_refl). clear B0.
  generalize dependent (step2 (phase F (julian_date (mjd tt)) (julian_date (mjd ut1)))). intros b PL.
  generalize dependent (step1 anelastic (mRe o) (mSEratio o) (mMEratio o) ps pm). intros a PL.
  unfold slots. cbn [map nth fst snd]. cbv zeta in PL.
  match goal with |- context [fold_res _ ?l _] => set (xs := l); change (forall n m, 0 <= m <= n -> n <= 4 ->
    written true xs (fun _ _ => Some 0%R) n m = Some (deltaC (cadd (a (Z.to_nat n) (Z.to_nat m)) (b (Z.to_nat n) (Z.to_nat m)))) /\
    written false xs (fun _ _ => Some 0%R) n m = Some (deltaS (cadd (a (Z.to_nat n) (Z.to_nat m)) (b (Z.to_nat n) (Z.to_nat m))))) in PL end.
  destruct (assign_ok 4 (mcs o) xs A1 A2) with (h := h1) (fC := fun _ _ : Z => Some 0%R) (fS := fun _ _ : Z => Some 0%R) as (h2 & E2 & P2 & O2 & S3 & S4); auto.
  { intros c n m v H. unfold xs in H. cbn [In] in H. repeat (destruct H as [H|H]; [injection H as <- <- <- _; lia|]). destruct H. }
  exists h2. split; [exact E2|]. split; [split; auto|]. split; [apply (only_trans h h1); assumption|].
  split.
  - apply (shows_ext h2 4 _ (written true xs (fun _ _ => Some 0%R))); [|exact S3]. intros n m Hm Hn. apply PL; assumption.
  - apply (shows_ext h2 4 _ (written false xs (fun _ _ => Some 0%R))); [|exact S4]. intros n m Hm Hn. apply PL; assumption.
Qed.

(** ** histories *)
Lemma only_acc_trans (h1 h2 h3 : mem R) p : only_acc h1 p h2 -> only_acc h2 p h3 -> only_acc h1 p h3.
Proof. apply only_trans. Qed.
Lemma run_ok h o c pm ps : ready h o -> fits_call c pm ps ->
  exists h', run o h c = Ok h' /\ ready h' o /\ only_acc h (mcs o) h' /\
    shows h' 4 (mC (mcs o)) (fun n m => Some (deltaC (result o pm ps (cargs c) (ctt c) (cut1 c) n m))) /\
    shows h' 4 (mS (mcs o)) (fun n m => Some (deltaS (result o pm ps (cargs c) (ctt c) (cut1 c) n m))).
Proof. intros H (A & B & D & E). apply coeffs_ok; assumption. Qed.
Lemma runs_ready o cs : forall h, ready h o -> (forall c, In c cs -> exists pm ps, fits_call c pm ps) ->
  exists h', fold_res (run o) cs h = Ok h' /\ ready h' o /\ only_acc h (mcs o) h'.
Proof.
  induction cs as [|c cs IH]; intros h H Hc.
  - exists h. split; [reflexivity|]. split; [exact H|apply only_refl].
  - destruct (Hc c (or_introl eq_refl)) as (pm & ps & Hf). destruct (run_ok h o c pm ps H Hf) as (h1 & E & R1 & O1 & _). cbn [fold_res]. rewrite E. cbn [bind].
    destruct (IH h1 R1 (fun c' H' => Hc c' (or_intror H'))) as (h2 & E2 & R2 & O2). exists h2. split; [exact E2|]. split; [exact R2|]. apply (only_trans h h1); assumption.
Qed.
Lemma history_ok h GMe Re GMs GMm cs c pm ps : (forall c', In c' cs -> exists pm' ps', fits_call c' pm' ps') -> fits_call c pm ps ->
  exists h0 o h1 h2, solid_ctor h GMe Re GMs GMm = Ok (h0, o) /\ fold_res (run o) cs h0 = Ok h1 /\ run o h1 c = Ok h2 /\
    let want := fun n m => total anelastic Re (GMs / GMe) (GMm / GMe) ps pm (phase (cargs c) (julian_date (mjd (ctt c))) (julian_date (mjd (cut1 c)))) (Z.to_nat n) (Z.to_nat m) in
    shows h2 4 (mC (mcs o)) (fun n m => Some (deltaC (want n m))) /\ shows h2 4 (mS (mcs o)) (fun n m => Some (deltaS (want n m))).
Proof.
  intros Hcs Hc. unfold solid_ctor. destruct (tide_ctor_ok h 4 4 ltac:(lia)) as (h0 & a & E & P & _ & _ & A1 & A2 & _). rewrite E. cbn [bind].
  set (o := mkSolid (GMs / GMe) (GMm / GMe) Re (amats a)). assert (R0 : ready h0 o) by (split; [exact P|split; assumption]).
  destruct (runs_ready o cs h0 R0 Hcs) as (h1 & E1 & R1 & _). destruct (run_ok h1 o c pm ps R1 Hc) as (h2 & E2 & _ & _ & S1 & S2).
  exists h0, o, h1, h2. split; [reflexivity|]. split; [exact E1|]. split; [exact E2|]. split; assumption.
Qed.

(** ** addition theorem: the normalisation is the right one *)
Open Scope R_scope.
Lemma unit_circle p : let z := sin (latitude p) in let x := cos (latitude p) * cos (longitude p) in let y := cos (latitude p) * sin (longitude p) in x * x + y * y = 1 - z * z.
Proof.
  cbv zeta. pose proof (sc (latitude p)). pose proof (sc (longitude p)).
  replace (_ + _) with (cos (latitude p) * cos (latitude p) * (sin (longitude p) * sin (longitude p) + cos (longitude p) * cos (longitude p))) by ring. rewrite H0. lra.
Qed.
Lemma addition2 p q : cdot (harm 2 0 p) (harm 2 0 q) + cdot (harm 2 1 p) (harm 2 1 q) + cdot (harm 2 2 p) (harm 2 2 q) = 5 * legendre 2 0 (cosangle p q).
Proof.
  destruct (harm_value2 p) as (-> & -> & ->). destruct (harm_value2 q) as (-> & -> & ->). rewrite leg20.
  pose proof (unit_circle p) as U. pose proof (unit_circle q) as V. cbv zeta in U, V. unfold cosangle, dot, position. cbn [p1 p2 p3].
  set (x := cos (latitude p) * cos (longitude p)) in *. set (y := cos (latitude p) * sin (longitude p)) in *. set (z := sin (latitude p)) in *.
  set (a := cos (latitude q) * cos (longitude q)) in *. set (b := cos (latitude q) * sin (longitude q)) in *. set (c := sin (latitude q)) in *.
  unfold cdot, P20. cbn [fst snd]. rewrite half.
  assert (S5 : sqrt 5 * sqrt 5 = 5) by (apply sqrt_sqrt; lra). assert (S53 : sqrt (5 / 3) * sqrt (5 / 3) = 5 / 3) by (apply sqrt_sqrt; lra). assert (S512 : sqrt (5 / 12) * sqrt (5 / 12) = 5 / 12) by (apply sqrt_sqrt; lra).
  transitivity ((sqrt 5 * sqrt 5) / 4 * (3 * (z * z) - 1) * (3 * (c * c) - 1) + (sqrt (5 / 3) * sqrt (5 / 3)) * 9 * z * c * (x * a + y * b) + (sqrt (5 / 12) * sqrt (5 / 12)) * 9 * ((x * x - y * y) * (a * a - b * b) + 4 * x * y * a * b)); [field|].
  rewrite S5, S53, S512.
  replace ((x * x - y * y) * (a * a - b * b) + 4 * x * y * a * b) with (2 * (x * a + y * b) * (x * a + y * b) - (x * x + y * y) * (a * a + b * b)) by ring. rewrite U, V. field.
Qed.
Lemma addition3 p q : cdot (harm 3 0 p) (harm 3 0 q) + cdot (harm 3 1 p) (harm 3 1 q) + cdot (harm 3 2 p) (harm 3 2 q) + cdot (harm 3 3 p) (harm 3 3 q) = 7 * legendre 3 0 (cosangle p q).
Proof.
  destruct (harm_value3 p) as (-> & -> & -> & ->). destruct (harm_value3 q) as (-> & -> & -> & ->). rewrite leg30.
  pose proof (unit_circle p) as U. pose proof (unit_circle q) as V. cbv zeta in U, V. unfold cosangle, dot, position. cbn [p1 p2 p3].
  set (x := cos (latitude p) * cos (longitude p)) in *. set (y := cos (latitude p) * sin (longitude p)) in *. set (z := sin (latitude p)) in *.
  set (a := cos (latitude q) * cos (longitude q)) in *. set (b := cos (latitude q) * sin (longitude q)) in *. set (c := sin (latitude q)) in *.
  unfold cdot, P30. cbn [fst snd]. rewrite half.
  assert (S7 : sqrt 7 * sqrt 7 = 7) by (apply sqrt_sqrt; lra). assert (S76 : sqrt (7 / 6) * sqrt (7 / 6) = 7 / 6) by (apply sqrt_sqrt; lra).
  assert (S760 : sqrt (7 / 60) * sqrt (7 / 60) = 7 / 60) by (apply sqrt_sqrt; lra). assert (S14 : sqrt (14 / 720) * sqrt (14 / 720) = 14 / 720) by (apply sqrt_sqrt; lra).
  set (s := x * a + y * b). set (t := (x * x + y * y) * (a * a + b * b)).
  transitivity ((sqrt 7 * sqrt 7) / 4 * z * c * (5 * (z * z) - 3) * (5 * (c * c) - 3) + (sqrt (7 / 6) * sqrt (7 / 6)) * (9 / 4) * (5 * (z * z) - 1) * (5 * (c * c) - 1) * s
    + (sqrt (7 / 60) * sqrt (7 / 60)) * 225 * z * c * (2 * s * s - t) + (sqrt (14 / 720) * sqrt (14 / 720)) * 225 * s * (4 * s * s - 3 * t)); [unfold s, t; field|].
  rewrite S7, S76, S760, S14. unfold t. rewrite U, V. replace (1 * x * (1 * a) + 1 * y * (1 * b) + 1 * z * (1 * c)) with (s + z * c) by (unfold s; ring).
  field.
Qed.
(** the coefficients of degree n of a body with one Love number for all orders, evaluated at a point, give k (Re/r)^(n+1) P_n (cos psi) *)
Lemma potential2 (k0 Re k : R) (kp : nat -> R) p q : let K := mkLove (fun _ _ => (k0, 0)) kp in
  cdot (deltaC (body K Re k p 2 0), deltaS (body K Re k p 2 0)) (harm 2 0 q) + cdot (deltaC (body K Re k p 2 1), deltaS (body K Re k p 2 1)) (harm 2 1 q) +
  cdot (deltaC (body K Re k p 2 2), deltaS (body K Re k p 2 2)) (harm 2 2 q) = k0 * k * (Re / radius p) ^ 3 * legendre 2 0 (cosangle p q).
Proof.
  intros K. rewrite !body_harm23 by auto. pose proof (addition2 p q) as A. unfold cdot in *. unfold deltaC, deltaS, cscale, cmul, K. cbn [kk fst snd Nat.add Nat.mul].
  rewrite inr5. set (w := Re / radius p). set (u := k * w ^ 3). transitivity (k0 * u / 5 * (5 * legendre 2 0 (cosangle p q))); [rewrite <- A; unfold u; field|unfold u; field].
Qed.
Lemma potential3 (k0 Re k : R) (kp : nat -> R) p q : let K := mkLove (fun _ _ => (k0, 0)) kp in
  cdot (deltaC (body K Re k p 3 0), deltaS (body K Re k p 3 0)) (harm 3 0 q) + cdot (deltaC (body K Re k p 3 1), deltaS (body K Re k p 3 1)) (harm 3 1 q) +
  cdot (deltaC (body K Re k p 3 2), deltaS (body K Re k p 3 2)) (harm 3 2 q) + cdot (deltaC (body K Re k p 3 3), deltaS (body K Re k p 3 3)) (harm 3 3 q) = k0 * k * (Re / radius p) ^ 4 * legendre 3 0 (cosangle p q).
Proof.
  intros K. rewrite !body_harm23 by auto. pose proof (addition3 p q) as A. unfold cdot in *. unfold deltaC, deltaS, cscale, cmul, K. cbn [kk fst snd Nat.add Nat.mul].
  rewrite inr7. set (w := Re / radius p). set (u := k * w ^ 4). transitivity (k0 * u / 7 * (7 * legendre 3 0 (cosangle p q))); [rewrite <- A; unfold u; field|unfold u; field].
Qed.

Lemma elastic_nth Re k v p i dC dS : length dC = 12%nat -> length dS = 12%nat -> is_at v p -> (i < 12)%nat ->
  let x := nth i slots (0, 0)%nat in
  nth i (fst (elastic_tb Re k v dC dS)) 0 = nth i dC 0 + deltaC (body elastic Re k p (fst x) (snd x)) /\
  nth i (snd (elastic_tb Re k v dC dS)) 0 = nth i dS 0 + deltaS (body elastic Re k p (fst x) (snd x)).
Proof.
  intros HC HS A Hi x. assert (N : v <> v0) by (destruct A as [P E]; intros Z; rewrite Z in E; pose proof (len_position _ (latitude p) (longitude p) P) as L; rewrite <- E in L;
    unfold len, dot, v0 in L; cbn in L; replace (0 * 0 + 0 * 0 + 0 * 0) with 0 in L by ring; rewrite sqrt_0 in L; lra).
  rewrite elastic_body by assumption. cbn [fst snd]. set (q := to_place (cartesian2spherical v)).
  assert (D : same_dir q p) by (apply (same_direction v); [apply spherical_at, N|exact A]).
  assert (B : body elastic Re k q (fst x) (snd x) = body elastic Re k p (fst x) (snd x)).
  { apply body_dir; [exact D|]. unfold x. do 12 (destruct i as [|i]; [cbn; lia|]). lia. }
  rewrite <- B.
  assert (G : forall l t i, length l = length t -> (i < length l)%nat -> nth i (sums l t) 0 = nth i l 0 + nth i t 0).
  { clear. induction l as [|a l IH]; intros [|b t] i H L; try discriminate; cbn in *; [lia|]. destruct i; [reflexivity|]. apply IH; lia. }
  split; rewrite G by (rewrite ?HC, ?HS; auto); unfold bodyC, bodyS; [rewrite (nth_map_lt _ slots i 0 (0, 0)%nat) by exact Hi|rewrite (nth_map_lt _ slots i 0 (0, 0)%nat) by exact Hi]; reflexivity.
Qed.
Lemma table_lines : Step2 = map wave_of (table_a ++ table_b ++ table_c) /\ length table_a = 48%nat /\ length table_b = 21%nat /\ length table_c = 2%nat /\
  NoDup (map fst (table_a ++ table_b ++ table_c)).
Proof.
  split; [reflexivity|]. split; [reflexivity|]. split; [reflexivity|]. split; [reflexivity|].
  cbn [map fst table_a table_b table_c app]. repeat (apply NoDup_cons; [cbn [In]; intros H; repeat (destruct H as [H|H]; [discriminate H|]); exact H|]). apply NoDup_nil.
Qed.
