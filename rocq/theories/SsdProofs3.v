(** C64: deformation by a potential, rotation about the axis, size of the difference. *)
From Coq Require Import Reals ZArith List Bool Lia Lra.
From Verif Require Import Base DoodsonModel DoodsonArgModel FundModel FundSpec SolidModel Vec SolidSpec SolidProofs SolidProofs2 SsdModel SsdSpec SsdProofs SsdProofs2.
Import ListNotations.
Open Scope R_scope.

Lemma d_const k x : derivable_pt_lim (fun _ => k) x 0.
Proof. exact (derivable_pt_lim_const k x). Qed.
Lemma d_sum f g x a b : derivable_pt_lim f x a -> derivable_pt_lim g x b -> derivable_pt_lim (fun y => f y + g y) x (a + b).
Proof. intros F G. exact (derivable_pt_lim_plus f g x a b F G). Qed.
Lemma d_prod f g x a b : derivable_pt_lim f x a -> derivable_pt_lim g x b -> derivable_pt_lim (fun y => f y * g y) x (a * g x + f x * b).
Proof. intros F G. exact (derivable_pt_lim_mult f g x a b F G). Qed.
Lemma d_id x : derivable_pt_lim (fun y => y) x 1.
Proof. exact (derivable_pt_lim_id x). Qed.
Lemma d_cos f x a : derivable_pt_lim f x a -> derivable_pt_lim (fun y => cos (f y)) x (- sin (f x) * a).
Proof. intros F. exact (derivable_pt_lim_comp f cos x a _ F (derivable_pt_lim_cos _)). Qed.
Lemma d_sin f x a : derivable_pt_lim f x a -> derivable_pt_lim (fun y => sin (f y)) x (cos (f x) * a).
Proof. intros F. exact (derivable_pt_lim_comp f sin x a _ F (derivable_pt_lim_sin _)). Qed.
Lemma d_ext f g x a b : (forall y, f y = g y) -> a = b -> derivable_pt_lim f x a -> derivable_pt_lim g x b.
Proof. intros E <- H e He. destruct (H e He) as [d Hd]. exists d. intros k N K. rewrite <- !E. apply Hd; assumption. Qed.
Ltac dx := repeat first [apply d_sum | apply d_prod | apply d_cos | apply d_sin | apply d_const | apply d_id].

(** ** degrees two and three *)
Lemma d_leg2 f x a : derivable_pt_lim f x a -> derivable_pt_lim (fun y => leg2 (f y)) x (3 * f x * a).
Proof.
  intros F. eapply d_ext; [| |apply (d_sum (fun y => (3 / 2) * (f y * f y)) (fun _ => - (1 / 2)) x); [apply d_prod; [apply d_const|apply d_prod; exact F]|apply d_const]];
    [intros y; unfold leg2; cbn beta; field|cbn beta; field].
Qed.
Lemma d_leg3 f x a : derivable_pt_lim f x a -> derivable_pt_lim (fun y => leg3 (f y)) x ((15 * f x ^ 2 - 3) / 2 * a).
Proof.
  intros F. eapply d_ext; [| |apply (d_sum (fun y => (5 / 2) * (f y * (f y * f y))) (fun y => - (3 / 2) * f y) x); [apply d_prod; [apply d_const|apply d_prod; [exact F|apply d_prod; exact F]]|apply d_prod; [apply d_const|exact F]]];
    [intros y; unfold leg3; cbn beta; field|cbn beta; field].
Qed.
Lemma d_cosangle_n r p q : derivable_pt_lim (fun x => cosangle (mkPl r x (longitude p)) q) (latitude p) (dot (north p) (up q)).
Proof.
  eapply d_ext; [| |apply (d_sum (fun x => cos x * (cos (longitude p) * px q + sin (longitude p) * py q)) (fun x => sin x * pz q)); [apply d_prod; [apply d_cos, d_id|apply d_const]|apply d_prod; [apply d_sin, d_id|apply d_const]]].
  - intros x. unfold cosangle, px, py, pz. flat. ring.
  - cbn beta. unfold px, py, pz. flat. ring.
Qed.
Lemma d_cosangle_e r p q : derivable_pt_lim (fun y => cosangle (mkPl r (latitude p) y) q) (longitude p) (cos (latitude p) * dot (east p) (up q)).
Proof.
  eapply d_ext; [| |apply (d_sum (fun y => cos y * (cos (latitude p) * px q) + sin y * (cos (latitude p) * py q)) (fun _ => sin (latitude p) * pz q));
    [apply d_sum; apply d_prod; [apply d_cos, d_id|apply d_const|apply d_sin, d_id|apply d_const]|apply d_const]].
  - intros x. unfold cosangle, px, py, pz. flat. ring.
  - cbn beta. unfold px, py, pz. flat. ring.
Qed.
Lemma tangent p q : vminus (up q) (vmul (cosangle p q) (up p)) = local p (dot (east p) (up q)) (dot (north p) (up q)) 0.
Proof.
  pose proof (sc1 (latitude p)) as A. pose proof (sc1 (longitude p)) as B. unfold cosangle. flat. apply v3_eq; cbn [p1 p2 p3]; ring [A B].
Qed.
Lemma cosangle_r r p q : cosangle (mkPl r (latitude p) (longitude p)) q = cosangle p q.
Proof. reflexivity. Qed.
Lemma deforms2 h l p q : cos (latitude p) <> 0 ->
  deforms h l (fun x y => leg2 (cosangle (mkPl 1 x y) q)) p (vplus (vmul (h * leg2 (cosangle p q)) (up p)) (vmul (3 * l * cosangle p q) (vminus (up q) (vmul (cosangle p q) (up p))))).
Proof.
  intros N. eexists. eexists. split; [apply d_leg2, d_cosangle_n|]. split; [apply d_leg2, d_cosangle_e|].
  rewrite !cosangle_r, tangent. generalize (cosangle p q) (dot (east p) (up q)) (dot (north p) (up q)). intros c e n. unfold local. apply v3_eq; cbn [vplus vmul p1 p2 p3]; field; exact N.
Qed.
Lemma deforms3 h l p q : cos (latitude p) <> 0 ->
  deforms h l (fun x y => leg3 (cosangle (mkPl 1 x y) q)) p (vplus (vmul (h * leg3 (cosangle p q)) (up p)) (vmul (l * ((15 * cosangle p q ^ 2 - 3) / 2)) (vminus (up q) (vmul (cosangle p q) (up p))))).
Proof.
  intros N. eexists. eexists. split; [apply d_leg3, d_cosangle_n|]. split; [apply d_leg3, d_cosangle_e|].
  rewrite !cosangle_r, tangent. generalize (cosangle p q) (dot (east p) (up q)) (dot (north p) (up q)). intros c e n. unfold local. apply v3_eq; cbn [vplus vmul p1 p2 p3]; field; exact N.
Qed.
Lemma in_phase_deforms Re k p q : cos (latitude p) <> 0 -> exists d2 d3,
  deforms (h2 (latitude p)) (l2 (latitude p)) (fun x y => leg2 (cosangle (mkPl 1 x y) q)) p d2 /\ deforms 0.292 0.015 (fun x y => leg3 (cosangle (mkPl 1 x y) q)) p d3 /\
  in_phase Re k p q = vplus (vmul (strength 2 Re k q) d2) (vmul (strength 3 Re k q) d3).
Proof.
  intros N. eexists. eexists. split; [apply deforms2, N|]. split; [apply deforms3, N|]. reflexivity.
Qed.
(** ** addition theorem *)
Lemma parts p q : leg2 (cosangle p q) = part20 (latitude p) (latitude q) + part21 (latitude p) (latitude q) (longitude p - longitude q) + part22 (latitude p) (latitude q) (longitude p - longitude q).
Proof.
  unfold leg2, part20, part21, part22, cosangle. rewrite !sin2, !cos2, !sin_minus, !cos_minus.
  pose proof (sc1 (latitude p)) as A. pose proof (sc1 (longitude p)) as B. pose proof (sc1 (latitude q)) as C. pose proof (sc1 (longitude q)) as D. flat. field [A B C D].
Qed.
Lemma part21_shift a b x : part21 a b (x + PI / 2) = - (3 / 4) * sin (2 * a) * sin (2 * b) * sin x.
Proof. unfold part21. rewrite cos_plus, cos_PI2, sin_PI2. ring. Qed.
Lemma part22_shift a b x : part22 a b (x + PI / 4) = - (3 / 4) * cos a ^ 2 * cos b ^ 2 * sin (2 * x).
Proof. unfold part22. replace (2 * (x + PI / 4)) with (2 * x + PI / 2) by field. rewrite cos_plus, cos_PI2, sin_PI2. ring. Qed.
Lemma out_diurnal_deforms p q : cos (latitude p) <> 0 ->
  deforms (-0.0025) (-0.0007) (fun x y => part21 x (latitude q) (y - longitude q + PI / 2)) p (out_diurnal p q).
Proof.
  intros N. exists (- (3 / 2) * sin (2 * latitude q) * cos (2 * latitude p) * sin (longitude p - longitude q)), (- (3 / 4) * sin (2 * latitude p) * sin (2 * latitude q) * cos (longitude p - longitude q)).
  split; [|split].
  - eapply d_ext; [intros x; symmetry; apply part21_shift| |apply (d_prod (fun x => - (3 / 4) * sin (2 * x) * sin (2 * latitude q)) (fun _ => sin (longitude p - longitude q))); [|apply d_const]];
      [|apply (d_prod (fun x => - (3 / 4) * sin (2 * x)) (fun _ => sin (2 * latitude q))); [apply d_prod; [apply d_const|apply (d_sin (fun x => 2 * x)), d_prod; [apply d_const|apply d_id]]|apply d_const]].
    cbn beta. field.
  - eapply d_ext; [intros x; symmetry; apply part21_shift| |apply (d_prod (fun _ => - (3 / 4) * sin (2 * latitude p) * sin (2 * latitude q)) (fun y => sin (y + - longitude q))); [apply d_const|apply d_sin, d_sum; [apply d_id|apply d_const]]].
    cbn beta. unfold Rminus. ring.
  - unfold out_diurnal. cbv zeta. rewrite part21_shift. apply f_equal3; rewrite ?sin2; [|rewrite cos2; field|field]. field. exact N.
Qed.
Lemma out_semidiurnal_deforms p q : cos (latitude p) <> 0 ->
  deforms (-0.0022) (-0.0007) (fun x y => part22 x (latitude q) (y - longitude q + PI / 4)) p (out_semidiurnal p q).
Proof.
  intros N. exists (3 / 4 * sin (2 * latitude p) * cos (latitude q) ^ 2 * sin (2 * (longitude p - longitude q))), (- (3 / 2) * cos (latitude p) ^ 2 * cos (latitude q) ^ 2 * cos (2 * (longitude p - longitude q))).
  split; [|split].
  - eapply (d_ext (fun x => cos x * cos x * (- (3 / 4) * cos (latitude q) ^ 2 * sin (2 * (longitude p - longitude q))))); [intros x; rewrite part22_shift; ring| |apply d_prod; [apply d_prod; apply d_cos, d_id|apply d_const]].
    cbn beta. rewrite (sin2 (latitude p)). field.
  - eapply (d_ext (fun y => (- (3 / 4) * cos (latitude p) ^ 2 * cos (latitude q) ^ 2) * sin (2 * (y + - longitude q)))); [intros y; rewrite part22_shift; reflexivity| |].
    2: { apply d_prod; [apply d_const|]. apply d_sin, d_prod; [apply d_const|]. apply d_sum; [apply d_id|apply d_const]. }
    cbn beta. unfold Rminus. field.
  - unfold out_semidiurnal. cbv zeta. rewrite part22_shift. apply f_equal3; [|field|field]. field. exact N.
Qed.
(** ** step 2 *)
Lemma diurnal_deforms p th l : cos (latitude p) <> 0 -> let a := th (of_code (code l)) in exists d1 d2,
  deforms (amp (rip l)) (amp (tip l) / 2) (fun x y => sin (2 * x) * sin (a + y)) p d1 /\ deforms (amp (rop l)) (amp (top l) / 2) (fun x y => sin (2 * x) * cos (a + y)) p d2 /\
  diurnal p th l = vplus d1 d2.
Proof.
  intros N a. eexists. eexists. split; [|split].
  - eexists. eexists. split; [apply d_prod; [apply (d_sin (fun x => 2 * x)), d_prod; [apply d_const|apply d_id]|apply d_const]|].
    split; [apply d_prod; [apply d_const|apply (d_sin (fun y => a + y)), d_sum; [apply d_const|apply d_id]]|]. reflexivity.
  - eexists. eexists. split; [apply d_prod; [apply (d_sin (fun x => 2 * x)), d_prod; [apply d_const|apply d_id]|apply d_const]|].
    split; [apply d_prod; [apply d_const|apply (d_cos (fun y => a + y)), d_sum; [apply d_const|apply d_id]]|]. reflexivity.
  - unfold diurnal. fold a. rewrite local_plus. apply f_equal3; cbv beta; rewrite ?(sin2 (latitude p)); field; exact N.
Qed.
Lemma long_deforms p th l : let a := th (of_code (code l)) in exists d1 d2,
  deforms (amp (rip l)) (2 / 3 * amp (tip l)) (fun x _ => (3 / 2 * sin x ^ 2 - 1 / 2) * cos a) p d1 /\
  deforms (amp (rop l)) (2 / 3 * amp (top l)) (fun x _ => (3 / 2 * sin x ^ 2 - 1 / 2) * sin a) p d2 /\
  long_period p th l = vplus d1 d2.
Proof.
  intros a. assert (D : forall k x, derivable_pt_lim (fun x => (3 / 2 * sin x ^ 2 - 1 / 2) * k) x (3 / 2 * sin (2 * x) * k)).
  { intros k x. eapply (d_ext (fun x => sin x * sin x * (3 / 2 * k) + (- (1 / 2) * k))); [intros y; field| |apply d_sum; [apply d_prod; [apply d_prod; apply d_sin, d_id|apply d_const]|apply d_const]].
    cbn beta. rewrite sin2. field. }
  eexists. eexists. split; [|split].
  - eexists. exists 0. split; [apply D|]. split; [apply d_const|]. reflexivity.
  - eexists. exists 0. split; [apply D|]. split; [apply d_const|]. reflexivity.
  - unfold long_period. fold a. rewrite local_plus. apply f_equal3; [unfold Rdiv; ring|field|field].
Qed.

(** ** rotation about the axis of the Earth *)
Lemma rotz_plus a u v : rotz a (vplus u v) = vplus (rotz a u) (rotz a v).
Proof. apply v3_eq; cbn; ring. Qed.
Lemma rotz_mul a k v : rotz a (vmul k v) = vmul k (rotz a v).
Proof. apply v3_eq; cbn; ring. Qed.
Lemma turn_local a p e n u : local (turn a p) e n u = rotz a (local p e n u).
Proof. unfold turn, rotz. flat. rewrite sin_plus, cos_plus. apply v3_eq; cbn [p1 p2 p3]; ring. Qed.
Lemma turn_up a p : up (turn a p) = rotz a (up p).
Proof. unfold turn, rotz. flat. rewrite sin_plus, cos_plus. apply v3_eq; cbn [p1 p2 p3]; ring. Qed.
Lemma turn_cos a p q : cosangle (turn a p) (turn a q) = cosangle p q.
Proof.
  unfold turn, cosangle. flat. rewrite !sin_plus, !cos_plus. pose proof (sc1 a) as A. ring [A].
Qed.
Lemma one_body_turn a Re k p q : one_body Re k (turn a p) (turn a q) = rotz a (one_body Re k p q).
Proof.
  unfold one_body, in_phase. cbv zeta. rewrite !turn_cos, !turn_up. unfold vsum, fold_right, out_diurnal, out_semidiurnal, lat_diurnal, lat_semidiurnal. cbv zeta.
  replace (longitude (turn a p) - longitude (turn a q)) with (longitude p - longitude q) by (cbn; ring). change (latitude (turn a p)) with (latitude p). change (latitude (turn a q)) with (latitude q).
  rewrite !turn_local. change (strength 2 Re k (turn a q)) with (strength 2 Re k q). change (strength 3 Re k (turn a q)) with (strength 3 Re k q).
  assert (Z : rotz a v0 = v0) by (apply v3_eq; cbn; ring). assert (M : forall u v, rotz a (vminus u v) = vminus (rotz a u) (rotz a v)) by (intros; apply v3_eq; cbn; ring).
  rewrite !rotz_plus, !rotz_mul, !rotz_plus, !rotz_mul, !M, !rotz_mul, !Z. reflexivity.
Qed.

(** ** Q1 *)
Lemma q1_bound p a : len (local p (2e-5 * cos a * sin (latitude p)) (2e-5 * sin a * cos (2 * latitude p)) 0) <= 2e-5.
Proof.
  rewrite len_local. rewrite <- (sqrt_square 2e-5) at 5 by lra. apply sqrt_le_1_alt.
  pose proof (sc1 a) as A. pose proof (sc1 (latitude p)) as B. pose proof (sc1 (2 * latitude p)) as C. set (c := cos a) in *. set (s := sin a) in *. set (u := sin (latitude p)) in *. set (v := cos (2 * latitude p)) in *. set (k := 2e-5).
  assert (K : 0 <= k * k) by nra. replace (k * c * u * (k * c * u) + k * s * v * (k * s * v)) with ((k * k) * (c * c * (u * u) + s * s * (v * v))) by ring.
  assert (U : u * u <= 1) by nra. assert (V : v * v <= 1) by nra. assert (0 <= c * c) by nra. assert (0 <= s * s) by nra.
  assert (c * c * (u * u) + s * s * (v * v) <= 1) by nra. nra.
Qed.
Lemma q1_wrong o tt ut1 rmoon rsun F pm ps : is_at rmoon pm -> is_at rsun ps -> exists p,
  latitude p = 0 /\ displacement o tt ut1 (position (radius p) (latitude p) (longitude p)) rmoon rsun F <>
  site (mRe o) (mSEratio o) (mMEratio o) p ps pm (phase F (julian_date (mjd tt)) (julian_date (mjd ut1))) (table_73a ++ further) table_73b.
Proof.
  intros M S. set (th := phase F (julian_date (mjd tt)) (julian_date (mjd ut1))). set (p := mkPl 1 0 (PI / 2 - th (of_code 135655))).
  exists p. split; [reflexivity|]. intros E. assert (P : is_at (position (radius p) (latitude p) (longitude p)) p) by (split; [cbn; lra|reflexivity]).
  rewrite (displacement_ok o tt ut1 _ rmoon rsun F p pm ps P M S) in E. fold th in E.
  pose proof (q1_difference (mRe o) (mSEratio o) (mMEratio o) p ps pm th) as D. rewrite E in D. cbv zeta in D.
  assert (L : len (vminus (site (mRe o) (mSEratio o) (mMEratio o) p ps pm th (table_73a ++ further) table_73b) (site (mRe o) (mSEratio o) (mMEratio o) p ps pm th (table_73a ++ further) table_73b)) = 0).
  { match goal with |- len (vminus ?x ?x) = 0 => generalize x end. intros x. unfold len, dot, vminus. cbn [p1 p2 p3]. rewrite <- sqrt_0. f_equal. ring. }
  rewrite D, len_local in L. replace (th (of_code 135655) + longitude p) with (PI / 2) in L by (cbn [longitude p]; ring). rewrite cos_PI2, sin_PI2 in L.
  cbn [latitude p] in L. replace (2 * 0) with 0 in L by ring. rewrite cos_0 in L. apply sqrt_eq_0 in L; nra.
Qed.
Lemma coordinates v w p p' q q' Re k : is_at v p -> is_at v p' -> is_at w q -> is_at w q' -> one_body Re k p q = one_body Re k p' q'.
Proof.
  intros P P' Q Q'. unfold one_body. rewrite <- (in_phase_ok Re k v w p q P Q), (in_phase_ok Re k v w p' q' P' Q').
  fold (extra p q) (extra p' q'). rewrite (extra_dir p q p' q'); [|apply (SolidProofs.same_direction v); assumption|apply (SolidProofs.same_direction w); assumption].
  rewrite (strength_dir 2 Re k q q'); [reflexivity|]. apply (SolidProofs.same_direction w); assumption.
Qed.
Lemma tables_ok : Tables7 = map row_of (table_73a ++ table_73b) /\ (forall r, In r Tables7Extended <-> In r (map row_of (code_table ++ table_73b))) /\
  length Tables7Extended = 36%nat /\ NoDup (map md Tables7Extended).
Proof.
  split; [exact unused_table|]. split; [|split; [reflexivity|]].
  - intros r. rewrite tables_order, !map_app, !in_app_iff. split; intros [H|H]; auto; left; apply (Permutation.Permutation_in _) with (2 := H); apply Permutation.Permutation_map; [exact order_perm|apply Permutation.Permutation_sym, order_perm].
  - cbn [map Tables7Extended row md]. repeat (apply NoDup_cons; [cbn [In]; intros H; repeat (destruct H as [H|H]; [discriminate H|]); exact H|]). apply NoDup_nil.
Qed.
Lemma q1_missing : ~ (forall r, In r Tables7 -> In r Tables7Extended).
Proof.
  intros H. specialize (H (row_of q1_iers)). assert (I : In (row_of q1_iers) Tables7) by (left; reflexivity). apply H in I. clear H.
  unfold Tables7Extended in I. cbn [In] in I. repeat (destruct I as [I|I]; [discriminate I|]). exact I.
Qed.
Lemma others_present r : In r Tables7 -> md r <> of_code 135655 -> In r Tables7Extended.
Proof.
  intros H N. unfold Tables7 in H. cbn [In] in H. destruct H as [H|H]; [exfalso; apply N; rewrite <- H; reflexivity|].
  unfold Tables7Extended. repeat (destruct H as [<-|H]; [cbn [In]; tauto|]). destruct H.
Qed.
