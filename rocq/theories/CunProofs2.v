From Coq Require Import Reals ZArith List Bool Lia Lra Ranalysis.
From Verif Require Import Base StorageModel MatrixModel PoleModel AlfSpec AlfMath AlfProofs CunSpec CunMath CunMath2 CunModel CunProofs.
Import ListNotations.
Open Scope Z_scope.

(** ** weights as products of square roots *)
Definition q (z : Z) : R := sqrt (IZR z).
Lemma w2_q a b : 0 <= a -> 0 <= b -> w2 a b = (q a * q b)%R.
Proof. intros A B. unfold w2, q. apply sqrt_mult; apply IZR_le; lia. Qed.
Lemma w4_q a b c d : 0 <= a -> 0 <= b -> 0 <= c -> 0 <= d -> w4 a b c d = (q a * q b * q c * q d)%R.
Proof.
  intros A B C D. unfold w4, q. pose proof (IZR_le _ _ A). pose proof (IZR_le _ _ B). pose proof (IZR_le _ _ C). pose proof (IZR_le _ _ D).
  rewrite !sqrt_mult; try reflexivity; repeat apply Rmult_le_pos; assumption.
Qed.
Lemma q_pos z : 0 < z -> (0 < q z)%R. Proof. intros H. apply sqrt_lt_R0. apply IZR_lt. lia. Qed.
Lemma sqrt_q n a b : 0 <= n -> (0 <= a)%R -> (0 < b)%R -> forall ca cb, a = IZR ca -> b = IZR cb -> sqrt ((2 * IZR n + a) / (2 * IZR n + b)) = (q (2 * n + ca) / q (2 * n + cb))%R.
Proof.
  intros Hn Ha Hb ca cb -> ->. pose proof (IZR_le _ _ Hn). unfold q. rewrite !plus_IZR, !mult_IZR. apply sqrt_div; lra.
Qed.
Lemma rat_q n : rat n = (q (2 * Z.of_nat n + 1) / q (2 * Z.of_nat n + 3))%R.
Proof. unfold rat, q. rewrite (INR_Z (2 * n + 1) (2 * Z.of_nat n + 1)) by lia. rewrite (INR_Z (2 * n + 3) (2 * Z.of_nat n + 3)) by lia. apply sqrt_div; [apply IZR_le|apply IZR_lt]; lia. Qed.
Lemma wup_q n m : wup n m = (q (2 * Z.of_nat n + 1) / q (2 * Z.of_nat n + 3) * (q (Z.of_nat n + Z.of_nat m + 1) * q (Z.of_nat n + Z.of_nat m + 2)) / delta m)%R.
Proof. unfold wup. rewrite rat_q. unfold q. rewrite (INR_Z (n + m + 1) (Z.of_nat n + Z.of_nat m + 1)) by lia. rewrite (INR_Z (n + m + 2) (Z.of_nat n + Z.of_nat m + 2)) by lia. rewrite sqrt_mult; [reflexivity| |]; apply IZR_le; lia. Qed.
Lemma wdn_q n p : (p <= n)%nat -> wdn n p = (q (2 * Z.of_nat n + 1) / q (2 * Z.of_nat n + 3) * (q (Z.of_nat n - Z.of_nat p) * q (Z.of_nat n - Z.of_nat p + 1) * delta p))%R.
Proof. intros H. unfold wdn. rewrite rat_q. unfold q. rewrite (INR_Z (n - p) (Z.of_nat n - Z.of_nat p)) by lia. rewrite (INR_Z (n - p + 1) (Z.of_nat n - Z.of_nat p + 1)) by lia. rewrite sqrt_mult; [reflexivity| |]; apply IZR_le; lia. Qed.
Lemma weq_q n m : (m <= n)%nat -> weq n m = (q (2 * Z.of_nat n + 1) / q (2 * Z.of_nat n + 3) * (q (Z.of_nat n + 1 - Z.of_nat m) * q (Z.of_nat n + Z.of_nat m + 1)))%R.
Proof. intros H. unfold weq. rewrite rat_q. unfold q. rewrite (INR_Z (S n - m) (Z.of_nat n + 1 - Z.of_nat m)) by lia. rewrite (INR_Z (n + m + 1) (Z.of_nat n + Z.of_nat m + 1)) by lia. rewrite sqrt_mult; [reflexivity| |]; apply IZR_le; lia. Qed.
Ltac abs_q :=
  repeat match goal with |- context [q ?a] => let H := fresh "Q" in pose proof (q_pos a ltac:(lia)) as H; let x := fresh "x" in set (x := q a) in * end;
  repeat match goal with x := q ?a |- _ =>
    repeat match goal with y := q ?b |- _ => tryif constr_eq x y then fail else (replace y with x in * by (unfold x, y; f_equal; ring); clear y) end; clearbody x end.
Ltac term_q := rewrite ?Nat2Z.inj_succ; change (Z.of_nat 0) with 0; unfold Z.succ; abs_q; f_equal; field; repeat split; lra.

(** ** the terms *)
Section Terms.
  Variables sx sy sz : R.
  Notation V n k := (Vn n k sx sy sz).
  Notation Wm n k := (Wn n k sx sy sz).
  Variables C S M W : Z -> Z -> res R.
  (** derivatives of c V(n,m) + s W(n,m) *)
  Definition pair_c (c s : R) (n m : nat) : comb := [(c, (KV, n, m)); (s, (KW, n, m))].
  Definition d1 (d : kind * nat * nat -> comb) (c s : R) (n m : nat) : R := evn (dc d (pair_c c s n m)) sx sy sz.
  Definition d2 (d d' : kind * nat * nat -> comb) (c s : R) (n m : nat) : R := evn (dc d' (dc d (pair_c c s n m))) sx sy sz.
  Definition acc_of (c s : R) (n m : nat) : vec3 := V3 (2 * d1 dxn c s n m) (2 * d1 dyn c s n m) (2 * d1 dzn c s n m).
  Definition grad_of (c s : R) (n m : nat) : sym3 := Sy (4 * d2 dxn dxn c s n m) (4 * d2 dxn dyn c s n m) (4 * d2 dxn dzn c s n m) (4 * d2 dyn dyn c s n m) (4 * d2 dyn dzn c s n m) (4 * d2 dzn dzn c s n m).
  Definition reads (F : Z -> Z -> res R) (G : nat -> nat -> R) (n lo hi : Z) : Prop := forall k, Z.max 0 lo <= Z.of_nat k <= hi -> F n (Z.of_nat k) = Ok (G (Z.to_nat n) k).
  Lemma reads_at F G n lo hi k nn kk : reads F G n lo hi -> Z.max 0 lo <= k <= hi -> Z.to_nat n = nn -> Z.to_nat k = kk -> F n k = Ok (G nn kk).
  Proof. intros H Hk <- <-. rewrite <- H; [|lia]. f_equal. lia. Qed.
  Lemma root2 : (0 < sqrt 2)%R. Proof. apply sqrt_lt_R0. lra. Qed.
  Lemma acc_term_ok nn p c s : (Datatypes.S p <= nn)%nat -> let n := Z.of_nat nn in let m := Z.of_nat (Datatypes.S p) in
    C n m = Ok c -> S n m = Ok s -> reads M (fun n k => V n k) (n + 1) (m - 1) (m + 1) -> reads W (fun n k => Wm n k) (n + 1) (m - 1) (m + 1) ->
    acc_term C S M W n m = Ok (acc_of c s nn (Datatypes.S p)).
  Proof.
    intros H n m HC HS HM HW. unfold acc_term. subst n m.
    rewrite !(reads_at _ _ _ _ _ _ (Datatypes.S nn) p HM) by lia. rewrite !(reads_at _ _ _ _ _ _ (Datatypes.S nn) p HW) by lia. cbn [bind].
    rewrite !(reads_at _ _ _ _ _ _ (Datatypes.S nn) (Datatypes.S p) HM) by lia. rewrite !(reads_at _ _ _ _ _ _ (Datatypes.S nn) (Datatypes.S p) HW) by lia. cbn [bind].
    rewrite !(reads_at _ _ _ _ _ _ (Datatypes.S nn) (Datatypes.S (Datatypes.S p)) HM) by lia. rewrite !(reads_at _ _ _ _ _ _ (Datatypes.S nn) (Datatypes.S (Datatypes.S p)) HW) by lia. cbn [bind].
    rewrite HC, HS. cbn [bind]. f_equal.
    assert (Em : (if Z.of_nat (Datatypes.S p) =? 1 then w2 (Z.of_nat nn - Z.of_nat (Datatypes.S p) + 1) (Z.of_nat nn - Z.of_nat (Datatypes.S p) + 2) * sqrt 2 else w2 (Z.of_nat nn - Z.of_nat (Datatypes.S p) + 1) (Z.of_nat nn - Z.of_nat (Datatypes.S p) + 2))%R = (w2 (Z.of_nat nn - Z.of_nat (Datatypes.S p) + 1) (Z.of_nat nn - Z.of_nat (Datatypes.S p) + 2) * delta p)%R).
    { unfold delta. destruct (Z.eqb_spec (Z.of_nat (Datatypes.S p)) 1), (Nat.eqb_spec p 0); try lia; ring. }
    rewrite Em. clear Em. rewrite !w2_q by lia. rewrite (sqrt_q (Z.of_nat nn) 1 3) with (ca := 1) (cb := 3) by (first [reflexivity|lia|lra]).
    unfold acc_of, d1, pair_c, vscale. cbn [dc flat_map fst snd scale_c map app evn onen dxn dyn dzn vx vy vz]. unfold half. rewrite wup_q, wdn_q, weq_q by lia. change (delta (Datatypes.S p)) with 1%R.
    set (dl := delta p). term_q.
  Qed.
  Lemma acc_term0_ok nn c s : let n := Z.of_nat nn in
    C n 0 = Ok c -> reads M (fun n k => V n k) (n + 1) 0 1 -> reads W (fun n k => Wm n k) (n + 1) 1 1 ->
    acc_term0 C M W n = Ok (acc_of c s nn 0).
  Proof.
    intros n HC HM HW. unfold acc_term0. subst n.
    rewrite !(reads_at _ _ _ _ _ _ (Datatypes.S nn) 0%nat HM) by lia. cbn [bind].
    rewrite !(reads_at _ _ _ _ _ _ (Datatypes.S nn) 1%nat HM) by lia. rewrite !(reads_at _ _ _ _ _ _ (Datatypes.S nn) 1%nat HW) by lia. cbn [bind].
    rewrite HC. cbn [bind]. f_equal. rewrite !w2_q by lia. rewrite (sqrt_q (Z.of_nat nn) 1 3) with (ca := 1) (cb := 3) by (first [reflexivity|lia|lra]).
    unfold acc_of, d1, pair_c, vscale. cbn [dc flat_map fst snd scale_c map app evn onen dxn dyn dzn vx vy vz]. rewrite Wn_0. rewrite wup_q, weq_q by lia. change (delta 0) with (sqrt 2). pose proof root2.
    term_q.
  Qed.
  Ltac second := unfold grad_of, d2, pair_c, sscale; cbn [dc flat_map fst snd scale_c map app evn onen dxn dyn dzn gxx gxy gxz gyy gyz gzz].
  Ltac weights := unfold half; rewrite ?wup_q; rewrite ?wdn_q by lia; rewrite ?weq_q by lia.
  Lemma grad_term_ok nn p c s : (Datatypes.S (Datatypes.S p) <= nn)%nat -> let n := Z.of_nat nn in let m := Z.of_nat (Datatypes.S (Datatypes.S p)) in
    C n m = Ok c -> S n m = Ok s -> reads M (fun n k => V n k) (n + 2) (m - 2) (m + 2) -> reads W (fun n k => Wm n k) (n + 2) (m - 2) (m + 2) ->
    grad_term C S M W n m = Ok (grad_of c s nn (Datatypes.S (Datatypes.S p))).
  Proof.
    intros H n m HC HS HM HW. unfold grad_term. subst n m. set (n2 := Datatypes.S (Datatypes.S nn)).
    rewrite !(reads_at _ _ _ _ _ _ n2 p HM) by lia. rewrite !(reads_at _ _ _ _ _ _ n2 p HW) by lia. cbn [bind].
    rewrite !(reads_at _ _ _ _ _ _ n2 (Datatypes.S p) HM) by lia. rewrite !(reads_at _ _ _ _ _ _ n2 (Datatypes.S p) HW) by lia. cbn [bind].
    rewrite !(reads_at _ _ _ _ _ _ n2 (Datatypes.S (Datatypes.S p)) HM) by lia. rewrite !(reads_at _ _ _ _ _ _ n2 (Datatypes.S (Datatypes.S p)) HW) by lia. cbn [bind].
    rewrite !(reads_at _ _ _ _ _ _ n2 (Datatypes.S (Datatypes.S (Datatypes.S p))) HM) by lia. rewrite !(reads_at _ _ _ _ _ _ n2 (Datatypes.S (Datatypes.S (Datatypes.S p))) HW) by lia. cbn [bind].
    rewrite !(reads_at _ _ _ _ _ _ n2 (Datatypes.S (Datatypes.S (Datatypes.S (Datatypes.S p)))) HM) by lia. rewrite !(reads_at _ _ _ _ _ _ n2 (Datatypes.S (Datatypes.S (Datatypes.S (Datatypes.S p)))) HW) by lia. cbn [bind].
    rewrite HC, HS. cbn [bind]. f_equal. clear HC HS HM HW.
    replace (if Z.of_nat (Datatypes.S (Datatypes.S p)) =? 2 then sqrt 2 else 1)%R with (delta p) by (unfold delta; destruct (Z.eqb_spec (Z.of_nat (Datatypes.S (Datatypes.S p))) 2), (Nat.eqb_spec p 0); try lia; reflexivity).
    rewrite !w4_q by lia. rewrite (sqrt_q (Z.of_nat nn) 1 5) with (ca := 1) (cb := 5) by (first [reflexivity|lia|lra]).
    second. fold n2. weights. repeat match goal with |- context [delta (Datatypes.S ?k)] => change (delta (Datatypes.S k)) with 1%R end.
    set (dl := delta p). clearbody n2. term_q.
  Qed.
  Lemma grad_term1_ok nn c s : (1 <= nn)%nat -> let n := Z.of_nat nn in
    C n 1 = Ok c -> S n 1 = Ok s -> reads M (fun n k => V n k) (n + 2) 0 3 -> reads W (fun n k => Wm n k) (n + 2) 0 3 ->
    grad_term1 C S M W n = Ok (grad_of c s nn 1).
  Proof.
    intros H n HC HS HM HW. unfold grad_term1. cbv zeta. subst n. set (n2 := Datatypes.S (Datatypes.S nn)).
    rewrite !(reads_at _ _ _ _ _ _ n2 0%nat HM) by lia. rewrite !(reads_at _ _ _ _ _ _ n2 0%nat HW) by lia. cbn [bind].
    rewrite !(reads_at _ _ _ _ _ _ n2 1%nat HM) by lia. rewrite !(reads_at _ _ _ _ _ _ n2 1%nat HW) by lia. cbn [bind].
    rewrite !(reads_at _ _ _ _ _ _ n2 2%nat HM) by lia. rewrite !(reads_at _ _ _ _ _ _ n2 2%nat HW) by lia. cbn [bind].
    rewrite !(reads_at _ _ _ _ _ _ n2 3%nat HM) by lia. rewrite !(reads_at _ _ _ _ _ _ n2 3%nat HW) by lia. cbn [bind].
    rewrite HC, HS. cbn [bind]. f_equal. clear HC HS HM HW. rewrite !w4_q by lia. rewrite (sqrt_q (Z.of_nat nn) 1 5) with (ca := 1) (cb := 5) by (first [reflexivity|lia|lra]).
    second. fold n2. weights. repeat match goal with |- context [delta (Datatypes.S ?k)] => change (delta (Datatypes.S k)) with 1%R end. change (delta 0) with (sqrt 2). pose proof root2. rewrite Wn_0.
    clearbody n2. term_q.
  Qed.
  Lemma grad_term0_ok nn c s : let n := Z.of_nat nn in
    C n 0 = Ok c -> reads M (fun n k => V n k) (n + 2) 0 2 -> reads W (fun n k => Wm n k) (n + 2) 1 2 ->
    grad_term0 C M W n = Ok (grad_of c s nn 0).
  Proof.
    intros n HC HM HW. unfold grad_term0. subst n. set (n2 := Datatypes.S (Datatypes.S nn)).
    rewrite !(reads_at _ _ _ _ _ _ n2 0%nat HM) by lia. cbn [bind].
    rewrite !(reads_at _ _ _ _ _ _ n2 1%nat HM) by lia. rewrite !(reads_at _ _ _ _ _ _ n2 1%nat HW) by lia. cbn [bind].
    rewrite !(reads_at _ _ _ _ _ _ n2 2%nat HM) by lia. rewrite !(reads_at _ _ _ _ _ _ n2 2%nat HW) by lia. cbn [bind].
    rewrite HC. cbn [bind]. f_equal. clear HC HM HW. rewrite !w4_q by lia. rewrite (sqrt_q (Z.of_nat nn) 1 5) with (ca := 1) (cb := 5) by (first [reflexivity|lia|lra]).
    second. fold n2. weights. repeat match goal with |- context [delta (Datatypes.S ?k)] => change (delta (Datatypes.S k)) with 1%R end. change (delta 0) with (sqrt 2). pose proof root2. rewrite Wn_0.
    clearbody n2. term_q.
  Qed.
  (** the order of the derivatives does not matter *)
  Ltac mixed := unfold d2, pair_c; cbn [dc flat_map fst snd scale_c map app evn onen dxn dyn dzn]; weights;
    repeat match goal with |- context [delta (Datatypes.S ?k)] => change (delta (Datatypes.S k)) with 1%R end; change (delta 0) with (sqrt 2); pose proof root2; rewrite ?Wn_0; rewrite ?Nat2Z.inj_succ; change (Z.of_nat 0) with 0; unfold Z.succ.
  Lemma d2_sym nn m c s : (m <= nn)%nat -> d2 dyn dxn c s nn m = d2 dxn dyn c s nn m /\ d2 dzn dxn c s nn m = d2 dxn dzn c s nn m /\ d2 dzn dyn c s nn m = d2 dyn dzn c s nn m.
  Proof.
    intros H. destruct m as [|[|p]]; mixed; [| |pose proof (delta_pos p) as D; set (dl := delta p) in *; clearbody dl]; (split; [|split]); abs_q; field; repeat split; lra.
  Qed.
End Terms.
