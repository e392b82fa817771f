From Coq Require Import Reals ZArith List Bool Lia Lra Ranalysis.
From Verif Require Import Base StorageModel MatrixModel PoleModel AlfSpec AlfMath AlfProofs CunSpec CunMath CunMath2 CunModel CunProofs CunProofs2.
Import ListNotations.

(** ** sums over the positions *)
Section Sums.
  Open Scope R_scope.
  Fixpoint rs {X} (F : X -> R) (l : list X) : R := match l with [] => 0 | p :: t => F p + rs F t end.
  Lemma rs_app {X} (F : X -> R) a b : rs F (a ++ b) = rs F a + rs F b.
  Proof. induction a as [|p a IH]; cbn [rs app]; [ring|]. rewrite IH. ring. Qed.
  Lemma rs_map {X Y} (F : Y -> R) (g : X -> Y) l : rs F (map g l) = rs (fun x => F (g x)) l.
  Proof. induction l as [|p a IH]; cbn [rs map]; [ring|]. rewrite IH. ring. Qed.
  Lemma rs_flat_map {X Y} (F : Y -> R) (g : X -> list Y) l : rs F (flat_map g l) = rs (fun x => rs F (g x)) l.
  Proof. induction l as [|p a IH]; cbn [rs flat_map]; [ring|]. rewrite rs_app, IH. ring. Qed.
  Lemma rs_ext {X} (F G : X -> R) l : (forall p, In p l -> F p = G p) -> rs F l = rs G l.
  Proof. induction l as [|p a IH]; intros H; cbn [rs]; [reflexivity|]. rewrite (H p), IH; [reflexivity| |left; reflexivity]. intros; apply H; right; assumption. Qed.
  Lemma zdown_nil hi lo : (hi < lo)%Z -> zdown hi lo = [].
  Proof. intros H. unfold zdown. rewrite zrange_neg by lia. reflexivity. Qed.
  Lemma zdown_cons hi lo : (lo <= hi)%Z -> zdown hi lo = hi :: zdown (hi - 1) lo.
  Proof.
    intros H. unfold zdown, zrange. replace (Z.to_nat (hi - lo + 1)) with (S (Z.to_nat (hi - 1 - lo + 1))) by lia. rewrite <- cons_seq. cbn [map]. rewrite Z.sub_0_r. f_equal.
    rewrite <- seq_shift, !map_map. apply map_ext. intros a. lia.
  Qed.
  Lemma upto_ext f g n : (forall k, (k <= n)%nat -> f k = g k) -> upto_sum f n = upto_sum g n.
  Proof. induction n as [|n IH]; intros H; cbn [upto_sum]; [apply H; lia|]. rewrite IH, (H (S n)); [reflexivity|lia|]. intros; apply H; lia. Qed.
  Lemma upto_plus f g n : upto_sum (fun k => f k + g k) n = upto_sum f n + upto_sum g n.
  Proof. induction n as [|n IH]; cbn [upto_sum]; [reflexivity|]. rewrite IH. ring. Qed.
  Lemma upto_scal a f n : upto_sum (fun k => a * f k) n = a * upto_sum f n.
  Proof. induction n as [|n IH]; cbn [upto_sum]; [reflexivity|]. rewrite IH. ring. Qed.
  Lemma upto_swap (f : nat -> nat -> R) a b : upto_sum (fun m => upto_sum (fun n => f n m) a) b = upto_sum (fun n => upto_sum (fun m => f n m) b) a.
  Proof. induction b as [|b IH]; cbn [upto_sum]; [reflexivity|]. rewrite IH, <- upto_plus. reflexivity. Qed.
  Lemma rs_down (F : Z -> R) D m : rs F (zdown (Z.of_nat D) (Z.of_nat m)) = upto_sum (fun n => if Nat.leb m n then F (Z.of_nat n) else 0) D.
  Proof.
    induction D as [|D IH]; cbn [upto_sum].
    - destruct m as [|m]; [rewrite zdown_cons, zdown_nil by lia; cbn; ring|]. rewrite zdown_nil by lia. reflexivity.
    - destruct (Nat.leb_spec m (S D)).
      + rewrite zdown_cons by lia. cbn [rs]. replace (Z.of_nat (S D) - 1)%Z with (Z.of_nat D) by lia. rewrite IH. ring.
      + rewrite zdown_nil by lia. rewrite (upto_ext _ (fun _ => 0)); [|intros k Hk; destruct (Nat.leb_spec m k); [lia|reflexivity]]. cbn [rs]. clear. induction D; cbn [upto_sum]; lra.
  Qed.
  Lemma upto_min (f : nat -> R) n b : upto_sum (fun m => if Nat.leb m n then f m else 0) b = upto_sum f (min n b).
  Proof.
    induction b as [|b IH]; cbn [upto_sum]; [rewrite Nat.min_0_r; reflexivity|]. rewrite IH. destruct (Nat.leb_spec (S b) n).
    - rewrite !Nat.min_r by lia. reflexivity.
    - rewrite !Nat.min_l by lia. ring.
  Qed.
  Lemma positions_sum (F : Z * Z -> R) D O :
    rs F (positions (Z.of_nat D) (Z.of_nat O)) = upto_sum (fun n => upto_sum (fun m => F (Z.of_nat n, Z.of_nat m)) (min n (max O 1))) D.
  Proof.
    transitivity (upto_sum (fun m => upto_sum (fun n => if Nat.leb m n then F (Z.of_nat n, Z.of_nat m) else 0) D) (max O 1)).
    - unfold positions. rewrite !rs_app, rs_flat_map, !rs_map.
      rewrite (rs_ext _ (fun m => upto_sum (fun n => if Nat.leb (Z.to_nat m) n then F (Z.of_nat n, m) else 0) D)).
      2: { intros m I. rewrite rs_map. assert (Hm : (2 <= m)%Z) by (unfold zdown in I; apply in_map_iff in I; destruct I as (k & <- & K); apply in_zrange in K; lia). pose proof (rs_down (fun n => F (n, m)) D (Z.to_nat m)) as Q. rewrite Z2Nat.id in Q by lia. exact Q. }
      change (zdown (Z.of_nat D) 1) with (zdown (Z.of_nat D) (Z.of_nat 1)). change (zdown (Z.of_nat D) 0) with (zdown (Z.of_nat D) (Z.of_nat 0)). rewrite (rs_down (fun n => F (n, 1%Z)) D 1), (rs_down (fun n => F (n, 0%Z)) D 0).
      induction O as [|[|O] IH].
      + rewrite zdown_nil by lia. cbn [rs max upto_sum]. cbn. ring.
      + rewrite zdown_nil by lia. cbn [rs max upto_sum]. cbn. ring.
      + rewrite zdown_cons by lia. cbn [rs]. replace (Z.of_nat (S (S O)) - 1)%Z with (Z.of_nat (S O)) by lia. replace (max (S (S O)) 1) with (S (max (S O) 1)) by lia. cbn [upto_sum]. rewrite <- IH. replace (S (max (S O) 1)) with (S (S O)) by lia. rewrite Nat2Z.id. ring.
    - rewrite upto_swap. apply upto_ext. intros n Hn. apply (upto_min (fun m => F (Z.of_nat n, Z.of_nat m))).
  Qed.
End Sums.

(** ** the potential as one combination *)
Section Potential.
  Open Scope R_scope.
  Fixpoint csum (f : nat -> comb) (n : nat) : comb := match n with O => f O | S k => csum f k ++ f n end.
  Lemma evn_csum f n x y z : evn (csum f n) x y z = upto_sum (fun k => evn (f k) x y z) n.
  Proof. induction n as [|n IH]; cbn [csum upto_sum]; [reflexivity|]. rewrite evn_app, IH. reflexivity. Qed.
  Lemma dc_csum d f n : dc d (csum f n) = csum (fun k => dc d (f k)) n.
  Proof. induction n as [|n IH]; cbn [csum]; [reflexivity|]. unfold dc in *. rewrite flat_map_app, IH. reflexivity. Qed.
  Lemma wfc_csum f n : (forall k, (k <= n)%nat -> wfc (f k)) -> wfc (csum f n).
  Proof. induction n as [|n IH]; intros H; cbn [csum]; [apply H; lia|]. apply Forall_app. split; [apply IH; intros; apply H; lia|apply H; lia]. Qed.
  Variables C S : nat -> nat -> R.
  Definition field_c (N O : nat) : comb := csum (fun n => csum (fun m => pair_c (C n m) (S n m) n m) (min n O)) N.
  Lemma field_wf N O : wfc (field_c N O).
  Proof. apply wfc_csum. intros n _. apply wfc_csum. intros m Hm. unfold wfc, pair_c. repeat apply Forall_cons; try apply Forall_nil; lia. Qed.
  Lemma field_potential GM Re N O x y z : geopotential GM Re N O C S x y z = GM / Re * evn (field_c N O) (x / Re) (y / Re) (z / Re).
  Proof.
    unfold geopotential, field_c. f_equal. rewrite evn_csum. apply upto_ext. intros n _. rewrite evn_csum. apply upto_ext. intros m _. unfold pair_c. cbn [evn onen]. ring.
  Qed.
  Lemma field_d1 d N O x y z : evn (dc d (field_c N O)) x y z = upto_sum (fun n => upto_sum (fun m => d1 x y z d (C n m) (S n m) n m) (min n O)) N.
  Proof. unfold field_c. rewrite dc_csum, evn_csum. apply upto_ext. intros n _. rewrite dc_csum, evn_csum. apply upto_ext. intros m _. reflexivity. Qed.
  Lemma field_d2 d d' N O x y z : evn (dc d' (dc d (field_c N O))) x y z = upto_sum (fun n => upto_sum (fun m => d2 x y z d d' (C n m) (S n m) n m) (min n O)) N.
  Proof. unfold field_c. rewrite !dc_csum, evn_csum. apply upto_ext. intros n _. rewrite !dc_csum, evn_csum. apply upto_ext. intros m _. reflexivity. Qed.
  Lemma away_scaled Re x y z : Re <> 0 -> away x y z -> away (x / Re) (y / Re) (z / Re).
  Proof.
    intros H A. unfold away in *. replace (x / Re * (x / Re) + y / Re * (y / Re) + z / Re * (z / Re)) with ((x * x + y * y + z * z) / (Re * Re)) by (field; exact H).
    apply Rdiv_lt_0_compat; [exact A|]. pose proof (Rsqr_pos_lt Re H). exact H0.
  Qed.
  (** derivatives of k * (combination at r / Re) *)
  Lemma scaled_limit (f : R -> R) k Re s v : Re <> 0 -> derivable_pt_lim f (s / Re) v -> derivable_pt_lim (fun t => k * f (t / Re)) s (k / Re * v).
  Proof.
    intros H D. replace (k / Re * v) with (k * (v * (/ Re))) by (field; exact H). apply derivable_pt_lim_scal. apply (derivable_pt_lim_comp (fun t => t / Re) f); [|exact D].
    pose proof (derivable_pt_lim_mult (fun t => t) (fun _ => / Re) s _ _ (derivable_pt_lim_id s) (derivable_pt_lim_const (/ Re) s)) as Q. replace (/ Re) with (1 * / Re + s * 0) by ring. exact Q.
  Qed.
  Definition sf (k Re : R) (c : comb) (x y z : R) : R := k * evn c (x / Re) (y / Re) (z / Re).
  Lemma sf_x k Re c x y z : Re <> 0 -> wfc c -> away x y z -> d_dx (sf k Re c) x y z (sf (k / Re) Re (dc dxn c) x y z).
  Proof. intros H Wf A. unfold d_dx, sf. apply (scaled_limit (fun t => evn c t (y / Re) (z / Re))); [exact H|]. apply (evn_x (x / Re) (y / Re) (z / Re)); [apply away_scaled; assumption|exact Wf]. Qed.
  Lemma sf_y k Re c x y z : Re <> 0 -> wfc c -> away x y z -> d_dy (sf k Re c) x y z (sf (k / Re) Re (dc dyn c) x y z).
  Proof. intros H Wf A. unfold d_dy, sf. apply (scaled_limit (fun t => evn c (x / Re) t (z / Re))); [exact H|]. apply (evn_y (x / Re) (y / Re) (z / Re)); [apply away_scaled; assumption|exact Wf]. Qed.
  Lemma sf_z k Re c x y z : Re <> 0 -> wfc c -> away x y z -> d_dz (sf k Re c) x y z (sf (k / Re) Re (dc dzn c) x y z).
  Proof. intros H Wf A. unfold d_dz, sf. apply (scaled_limit (fun t => evn c (x / Re) (y / Re) t)); [exact H|]. apply (evn_z (x / Re) (y / Re) (z / Re)); [apply away_scaled; assumption|exact Wf]. Qed.
  Section Gradient.
    Variables (GM Re : R) (N O : nat).
    Hypothesis H : Re <> 0.
    Let U := geopotential GM Re N O C S.
    Let c := field_c N O.
    Lemma U_sf x y z : sf (GM / Re) Re c x y z = U x y z. Proof. symmetry. apply field_potential. Qed.
    Lemma U_x x y z : away x y z -> d_dx U x y z (sf (GM / Re / Re) Re (dc dxn c) x y z).
    Proof. intros A. unfold d_dx. apply (limit_ext (fun s => sf (GM / Re) Re c s y z)); [intros; apply U_sf|]. apply (sf_x (GM / Re) Re c x y z H (field_wf N O) A). Qed.
    Lemma U_y x y z : away x y z -> d_dy U x y z (sf (GM / Re / Re) Re (dc dyn c) x y z).
    Proof. intros A. unfold d_dy. apply (limit_ext (fun s => sf (GM / Re) Re c x s z)); [intros; apply U_sf|]. apply (sf_y (GM / Re) Re c x y z H (field_wf N O) A). Qed.
    Lemma U_z x y z : away x y z -> d_dz U x y z (sf (GM / Re / Re) Re (dc dzn c) x y z).
    Proof. intros A. unfold d_dz. apply (limit_ext (fun s => sf (GM / Re) Re c x y s)); [intros; apply U_sf|]. apply (sf_z (GM / Re) Re c x y z H (field_wf N O) A). Qed.
    Lemma U_2 x y z : away x y z ->
      then_dx d_dx U x y z (sf (GM / Re / Re / Re) Re (dc dxn (dc dxn c)) x y z) /\ then_dy d_dx U x y z (sf (GM / Re / Re / Re) Re (dc dyn (dc dxn c)) x y z) /\ then_dz d_dx U x y z (sf (GM / Re / Re / Re) Re (dc dzn (dc dxn c)) x y z) /\
      then_dy d_dy U x y z (sf (GM / Re / Re / Re) Re (dc dyn (dc dyn c)) x y z) /\ then_dz d_dy U x y z (sf (GM / Re / Re / Re) Re (dc dzn (dc dyn c)) x y z) /\ then_dz d_dz U x y z (sf (GM / Re / Re / Re) Re (dc dzn (dc dzn c)) x y z).
    Proof.
      intros A. pose proof (field_wf N O) as Wf. pose proof (wfc_dc dxn c wf_dxn Wf) as Wx. pose proof (wfc_dc dyn c wf_dyn Wf) as Wy. pose proof (wfc_dc dzn c wf_dzn Wf) as Wz.
      repeat split.
      - exists (sf (GM / Re / Re) Re (dc dxn c)). split; [apply U_x|apply sf_x; assumption].
      - exists (sf (GM / Re / Re) Re (dc dxn c)). split; [apply U_x|apply sf_y; assumption].
      - exists (sf (GM / Re / Re) Re (dc dxn c)). split; [apply U_x|apply sf_z; assumption].
      - exists (sf (GM / Re / Re) Re (dc dyn c)). split; [apply U_y|apply sf_y; assumption].
      - exists (sf (GM / Re / Re) Re (dc dyn c)). split; [apply U_y|apply sf_z; assumption].
      - exists (sf (GM / Re / Re) Re (dc dzn c)). split; [apply U_z|apply sf_z; assumption].
    Qed.
    (** the derivatives in the other order *)
    Lemma U_mixed x y z : away x y z ->
      then_dx d_dy U x y z (sf (GM / Re / Re / Re) Re (dc dxn (dc dyn c)) x y z) /\ then_dx d_dz U x y z (sf (GM / Re / Re / Re) Re (dc dxn (dc dzn c)) x y z) /\ then_dy d_dz U x y z (sf (GM / Re / Re / Re) Re (dc dyn (dc dzn c)) x y z).
    Proof.
      intros A. pose proof (field_wf N O) as Wf. pose proof (wfc_dc dyn c wf_dyn Wf) as Wy. pose proof (wfc_dc dzn c wf_dzn Wf) as Wz.
      repeat split.
      - exists (sf (GM / Re / Re) Re (dc dyn c)). split; [apply U_y|apply sf_x; assumption].
      - exists (sf (GM / Re / Re) Re (dc dzn c)). split; [apply U_z|apply sf_x; assumption].
      - exists (sf (GM / Re / Re) Re (dc dzn c)). split; [apply U_z|apply sf_y; assumption].
    Qed.
  End Gradient.
End Potential.
