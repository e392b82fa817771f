From Coq Require Import Reals ZArith List Bool Lia Lra.
From Verif Require Import Base StorageModel StorageSpec MatrixModel MatrixSpec MatrixProofs TideSpec TideProofs TideProofs2 TideProofs3 PoleModel PoleProofs PoleProofs2 Poly AlfSpec AlfMath AlfProofs CunSpec CunMath CunMath2 CunModel CunReady CunProofs CunProofs2 CunProofs3 CunProofs4 CunProofs5.
Import ListNotations.
Open Scope Z_scope.

(** ** memory with given coefficients *)
Lemma store_all (h : mem R) d m (C : Z -> Z -> R) : sized h d m -> forall l, (forall n k, In (n, k) l -> 0 <= k <= n /\ n <= d) ->
  exists h', sized h' d m /\ framed h m h' /\ forall n k, In (n, k) l -> get R h' m n k = Ok (Some (C n k)).
Proof.
  intros Z0. induction l as [|(n, k) l IH]; intros H.
  - exists h. split; [exact Z0|]. split; [|intros ? ? []]. intros x V _. auto.
  - destruct IH as (h1 & Z1 & F1 & G1); [intros; apply H; right; assumption|]. destruct (MatrixProgProofs.reads_exists h1 m (proj1 Z1)) as (f & Hf). pose proof (proj2 (shows_reads h1 d m _ Z1) Hf) as Sf. destruct (H n k (or_introl eq_refl)) as (Hk & Hn).
    destruct (put_ok h1 d m n k (Some (C n k)) f Z1 Hk Hn Sf) as (h2 & E2 & Z2 & F2 & S2). exists h2. split; [exact Z2|]. split.
    + intros x V A. destruct (F1 x V A) as (V1 & R1). destruct (F2 x V1 A) as (V2 & R2). split; [exact V2|]. intros i j K. rewrite R2, R1; auto.
    + intros n' k' I. destruct (H n' k' I) as (Hk' & Hn'). rewrite S2 by assumption. destruct (Z.eqb_spec n' n) as [-> |]; [destruct (Z.eqb_spec k' k) as [-> |]|]; cbn [andb]; [reflexivity| |]; (destruct I as [I|I]; [congruence|]; rewrite <- (Sf _ _ Hk' Hn'); apply G1, I).
Qed.
Lemma fresh_with (h : mem R) d (C : Z -> Z -> R) : 0 <= d -> exists h' m, sized h' d m /\ shows h' d m (fun n k => Some (C n k)) /\
  forall x, valid h x -> valid h' x /\ apart x m /\ apart m x /\ forall i j, kept x (i, j) -> get R h' x i j = get R h x i j.
Proof.
  intros H. destruct (fresh h d H) as (h1 & m & _ & Z1 & _ & _ & _ & _ & G1).
  destruct (store_all h1 d m C Z1 (flat_map (fun n => map (fun k => (n, k)) (zrange (n + 1))) (zrange (d + 1)))) as (h2 & Z2 & F2 & S2).
  { intros n k I. apply in_flat_map in I. destruct I as (n' & I1 & I2). apply in_map_iff in I2. destruct I2 as (k' & E & I2). inversion E; subst. apply in_zrange in I1, I2. lia. }
  exists h2, m. split; [exact Z2|]. split.
  - intros n k Hk Hn. apply S2. apply in_flat_map. exists n. split; [apply in_zrange; lia|]. apply in_map_iff. exists k. split; [reflexivity|apply in_zrange; lia].
  - intros x V. destruct (G1 x V) as (V1 & A1 & A2 & R1). destruct (F2 x V1 A1) as (V2 & R2). split; [exact V2|]. split; [exact A1|]. split; [exact A2|]. intros i j K. rewrite R2, R1 by exact K. reflexivity.
Qed.
Lemma memory_exists G O d e Re GM C S : 0 <= G -> 0 <= d -> 0 <= e -> exists h cs M W, ready h cs M W d e C S /\ gdeg cs = G /\ gord cs = O /\ gRe cs = Re /\ gGM cs = GM /\ cap M = nelem M /\ cap W = nelem W.
Proof.
  intros HG Hd He. destruct (fresh_with [] G C HG) as (h1 & c & Z1 & S1 & _). destruct (fresh_with h1 G S HG) as (h2 & s & Z2 & S2 & G2).
  destruct (fresh h2 d Hd) as (h3 & M & _ & Z3 & C3 & _ & _ & _ & G3). destruct (fresh h3 e He) as (h4 & W & _ & Z4 & C4 & _ & _ & _ & G4).
  exists h4, (mkSt c s G O Re GM), M, W. cbn [gdeg gord gRe gGM]. split; [|auto 10].
  destruct (G2 c (proj1 Z1)) as (V2 & _ & _ & R2). destruct (G3 c V2) as (V3 & A3 & _ & R3). destruct (G4 c V3) as (V4 & A4 & _ & R4).
  destruct (G3 s (proj1 Z2)) as (U3 & B3 & _ & Q3). destruct (G4 s U3) as (U4 & B4 & _ & Q4). destruct (G4 M (proj1 Z3)) as (V5 & A5 & A6 & _).
  unfold ready. cbn [gdeg gC gS].
  assert (KC : forall n k, 0 <= k <= n -> n <= G -> kept c (n, k)) by (intros; apply (kept_lw c G); try apply Z1; auto). assert (KS : forall n k, 0 <= k <= n -> n <= G -> kept s (n, k)) by (intros; apply (kept_lw s G); try apply Z2; auto).
  assert (ZC : sized h4 G c) by (destruct Z1 as (_ & ?); split; assumption). assert (ZS : sized h4 G s) by (destruct Z2 as (_ & ?); split; assumption). assert (ZM : sized h4 d M) by (destruct Z3 as (_ & ?); split; assumption).
  refine (conj ZC (conj _ (conj ZS (conj _ (conj ZM (conj Z4 (conj A5 (conj A6 (conj A3 (conj A4 (conj B3 B4))))))))))).
  - intros n k Hk Hn. rewrite R4, R3, R2 by (apply KC; assumption). apply S1; assumption.
  - intros n k Hk Hn. rewrite Q4, Q3 by (apply KS; assumption). apply S2; assumption.
Qed.

(** ** values of the functions at special points *)
Open Scope R_scope.
Lemma legendre_at_1 n : legendre n 0 1 = 1.
Proof.
  induction n as [|n IH].
  - unfold legendre, rod. cbn. field.
  - pose proof (next_degree n 0 1 ltac:(lia)) as Q. rewrite IH in Q. replace (INR (S n - 0)) with (INR (n + 0 + 1)) in Q by (f_equal; lia). assert (0 < INR (n + 0 + 1)) by (apply lt_0_INR; lia). assert (X : INR (n + 0 + 1) * (legendre (S n) 0 1 - 1) = 0) by lra. apply Rmult_integral in X. destruct X; lra.
Qed.
Lemma rad_pole : rad 0 0 1 = 1.
Proof. unfold rad. replace (0 * 0 + 0 * 0 + 1 * 1) with 1 by ring. apply sqrt_1. Qed.
Lemma norm_pos n m : (m <= n)%nat -> 0 < norm n m.
Proof.
  intros H. unfold norm. apply sqrt_lt_R0. unfold Rdiv. apply Rmult_lt_0_compat; [|apply Rinv_0_lt_compat, INR_fact_lt_0]. apply Rmult_lt_0_compat; [|apply INR_fact_lt_0]. apply Rmult_lt_0_compat; [destruct (Nat.eqb m 0); lra|apply lt_0_INR; lia].
Qed.
Lemma pole_0 n : 0 < Vn n 0 0 0 1.
Proof. unfold Vn, solid_v, radial. cbn [cpow fst]. rewrite rad_pole. replace (1 / 1) with 1 by field. rewrite legendre_at_1, pow1. pose proof (norm_pos n 0 ltac:(lia)). lra. Qed.
Lemma cpow_0 m : cpow (S m) 0 0 = (0, 0).
Proof. rewrite cpow_S. f_equal; ring. Qed.
Lemma pole_m n m : Vn n (S m) 0 0 1 = 0 /\ Wn n (S m) 0 0 1 = 0.
Proof. unfold Vn, Wn, solid_v, solid_w. rewrite cpow_0. cbn [fst snd]. split; ring. Qed.
Lemma W_plane n m x z : Wn n m x 0 z = 0.
Proof. unfold Wn, solid_w. assert (X : snd (cpow m x 0) = 0) by (induction m; [reflexivity|rewrite B_S, IHm; ring]). rewrite X. ring. Qed.
Lemma rr_pos x y z : away x y z -> 0 < 1 / rad x y z * (1 / rad x y z).
Proof. intros H. pose proof (rad_pos x y z H). assert (0 < 1 / rad x y z) by (apply Rdiv_lt_0_compat; lra). apply Rmult_lt_0_compat; assumption. Qed.
Lemma V_diag_pos m x z : 0 < x -> 0 < Vn m m x 0 z.
Proof.
  intros Hx. assert (A : away x 0 z) by (unfold away; nra). induction m as [|m IH].
  - rewrite Vn_00 by exact A. apply Rdiv_lt_0_compat; [lra|apply rad_pos, A].
  - rewrite Vn_diagonal by exact A. rewrite W_plane. pose proof (rr_pos x 0 z A) as Q. assert (D : 0 < Dn m). { unfold Dn. destruct (Nat.eqb m 0); apply sqrt_lt_R0; [lra|]. apply Rdiv_lt_0_compat; apply lt_0_INR; lia. }
    apply Rmult_lt_0_compat; [exact D|]. assert (0 < x * (1 / rad x 0 z * (1 / rad x 0 z))) by (apply Rmult_lt_0_compat; assumption). nra.
Qed.
Lemma V_subdiag_pos m x z : 0 < x -> 0 < z -> 0 < Vn (S m) m x 0 z.
Proof.
  intros Hx Hz. assert (A : away x 0 z) by (unfold away; nra). rewrite Vn_first by exact A. apply Rmult_lt_0_compat; [|apply V_diag_pos, Hx]. apply Rmult_lt_0_compat; [|apply Rmult_lt_0_compat; [exact Hz|apply rr_pos, A]].
  unfold An. apply sqrt_lt_R0. apply Rdiv_lt_0_compat; apply Rmult_lt_0_compat; apply lt_0_INR; lia.
Qed.
(** in spherical coordinates *)
Lemma cpow_polar m r l : cpow m (r * cos l) (r * sin l) = (r ^ m * cos (INR m * l), r ^ m * sin (INR m * l)).
Proof.
  induction m as [|m IH]; [cbn; rewrite Rmult_0_l, cos_0, sin_0; f_equal; ring|]. rewrite cpow_S, IH. cbn [fst snd]. rewrite S_INR. replace ((INR m + 1) * l) with (INR m * l + l) by ring. rewrite cos_plus, sin_plus. cbn [pow]. f_equal; ring.
Qed.
Lemma spherical n m r p l : 0 < r ->
  Vn n m (r * cos p * cos l) (r * cos p * sin l) (r * sin p) = Pbar n m p * cos (INR m * l) / r ^ (n + 1) /\
  Wn n m (r * cos p * cos l) (r * cos p * sin l) (r * sin p) = Pbar n m p * sin (INR m * l) / r ^ (n + 1).
Proof.
  intros H. assert (X : rad (r * cos p * cos l) (r * cos p * sin l) (r * sin p) = r).
  { unfold rad. replace (_ + _ + _) with (r * r) by (pose proof (sin2_cos2 p) as P; pose proof (sin2_cos2 l) as L; unfold Rsqr in *; replace (r * cos p * cos l * (r * cos p * cos l) + r * cos p * sin l * (r * cos p * sin l)) with (r * r * (cos p * cos p) * (sin l * sin l + cos l * cos l)) by ring; rewrite L; replace (r * sin p * (r * sin p)) with (r * r * (sin p * sin p)) by ring; replace (cos p * cos p) with (1 - sin p * sin p) by lra; ring). apply sqrt_square. lra. }
  unfold Vn, Wn, solid_v, solid_w, radial, Pbar. rewrite X, cpow_polar. cbn [fst snd]. replace (r * sin p / r) with (sin p) by (field; lra). replace (n + m + 1)%nat with (n + 1 + m)%nat by lia. rewrite (pow_add r (n + 1) m), Rpow_mult_distr. pose proof (pow_lt r m H). pose proof (pow_lt r (n + 1) H). split; field; lra.
Qed.
