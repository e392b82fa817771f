(** Proofs about AOD1B names, blocks and streams. *)
From Coq Require Import Ascii String Reals ZArith List Bool Lia Lra.
From Verif Require Import Base CString FromChars Aod1bModel Aod1bSpec.
Import ListNotations.
Open Scope Z_scope.

(** ** names *)
Lemma two_digits_fmt n : 0 <= n <= 99 -> fmt02 n = two_digits n.
Proof.
  intros H. unfold fmt02, two_digits. destruct (Z.ltb_spec n 0); [lia|]. destruct (Z.ltb_spec n 10).
  - rewrite dec_small by lia. rewrite Z.div_small, Z.mod_small by lia. reflexivity.
  - apply dec_two. lia.
Qed.

(** the bytes of the uncompressed name *)
Definition name_bytes (date : list Z) (satid rl : Z) : list Z :=
  chars "AOD1B_" ++ date ++ [95; satid; 95] ++ two_digits rl ++ chars ".asc".
Lemma ten (d : list Z) : length d = 10%nat -> exists a b c e f g h i j k, d = [a; b; c; e; f; g; h; i; j; k].
Proof. intros L. do 10 (destruct d as [|? d]; [discriminate|]). destruct d; [|discriminate]. repeat eexists. Qed.
Lemma filename_ok date rl buf satid : length date = 10%nat -> 0 <= rl <= 99 -> (26 <= length buf)%nat ->
  filename date rl buf satid false = Ok (name_bytes date satid rl ++ [0] ++ skipn 26 buf).
Proof.
  intros LD R LB. destruct (ten date LD) as (a & b & c & e & f & g & h & i & j & k & ->). clear LD.
  do 26 (destruct buf as [|? buf]; [cbn in LB; lia|]). unfold filename. rewrite (two_digits_fmt rl R). unfold two_digits. reflexivity.
Qed.
Lemma filename_short date rl buf satid z : length date = 10%nat -> 0 <= rl <= 99 -> (length buf < 26)%nat ->
  filename date rl buf satid z = UB.
Proof.
  intros LD R LB. destruct (ten date LD) as (a & b & c & e & f & g & h & i & j & k & ->). clear LD.
  unfold filename. rewrite (two_digits_fmt rl R). unfold two_digits.
  do 26 (destruct buf as [|? buf]; [reflexivity|]). cbn in LB. lia.
Qed.
Lemma filename_gz_ok date rl buf satid : length date = 10%nat -> 0 <= rl <= 99 -> (31 <= length buf)%nat ->
  exists x, filename date rl buf satid true = Ok (name_bytes date satid rl ++ [0; x] ++ chars ".gz" ++ [0] ++ skipn 31 buf).
Proof.
  intros LD R LB. destruct (ten date LD) as (a & b & c & e & f & g & h & i & j & k & ->). clear LD.
  do 31 (destruct buf as [|? buf]; [cbn in LB; lia|]). unfold filename. rewrite (two_digits_fmt rl R). unfold two_digits. eexists. reflexivity.
Qed.
Lemma filename_gz_short date rl buf satid : length date = 10%nat -> 0 <= rl <= 99 -> (length buf < 31)%nat ->
  filename date rl buf satid true = UB.
Proof.
  intros LD R LB. destruct (ten date LD) as (a & b & c & e & f & g & h & i & j & k & ->). clear LD.
  unfold filename. rewrite (two_digits_fmt rl R). unfold two_digits.
  do 31 (destruct buf as [|? buf]; [reflexivity|]). cbn in LB. lia.
Qed.
Lemma upto0_app w r : Forall (fun c => c <> 0) w -> upto0 (w ++ 0 :: r) = w.
Proof. induction 1 as [|c w H F IH]; simpl; [reflexivity|]. destruct (Z.eqb_spec c 0); [congruence|]. rewrite IH. reflexivity. Qed.
Lemma name_nonzero date satid rl : Forall (fun c => c <> 0) date -> satid <> 0 -> 0 <= rl <= 99 -> Forall (fun c => c <> 0) (name_bytes date satid rl).
Proof.
  intros F S R. unfold name_bytes. repeat (apply Forall_app; split); try assumption; try (repeat constructor; discriminate).
  - repeat constructor; try discriminate. exact S.
  - pose proof (Z.div_pos rl 10 ltac:(lia) ltac:(lia)). pose proof (Z.mod_pos_bound rl 10 ltac:(lia)). repeat constructor; lia.
Qed.
Lemma last_slash_app a b : last_slash (a ++ b) = match last_slash b with Some k => Some (length a + k)%nat | None => last_slash a end.
Proof.
  induction a as [|c a IH]; simpl; [destruct (last_slash b); reflexivity|]. rewrite IH. destruct (last_slash b) as [k|]; reflexivity.
Qed.
Lemma no_slash s : Forall (fun c => c <> 47) s -> last_slash s = None.
Proof. induction 1 as [|c s H F IH]; simpl; [reflexivity|]. rewrite IH. destruct (Z.eqb_spec c 47); [congruence|reflexivity]. Qed.
Lemma name_no_slash date satid rl : Forall (fun c => c <> 47) date -> satid <> 47 -> 0 <= rl <= 99 -> Forall (fun c => c <> 47) (name_bytes date satid rl).
Proof.
  intros F S R. unfold name_bytes. repeat (apply Forall_app; split); try assumption; try (repeat constructor; discriminate).
  - repeat constructor; try discriminate. exact S.
  - pose proof (Z.div_pos rl 10 ltac:(lia) ltac:(lia)). pose proof (Z.mod_pos_bound rl 10 ltac:(lia)). repeat constructor; lia.
Qed.
Lemma resolve_ok path date satid rl : length date = 10%nat -> Forall (fun c => c <> 47) date -> satid <> 47 -> 0 <= rl <= 99 ->
  resolve_rl (path ++ 47 :: name_bytes date satid rl) = Ok rl.
Proof.
  intros LD F S R. unfold resolve_rl. rewrite last_slash_app. cbn [last_slash]. rewrite (no_slash _ (name_no_slash _ _ _ F S R)). cbn [Z.eqb Pos.eqb].
  destruct (ten date LD) as (a & b & c & e & f & g & h & i & j & k & ->).
  rewrite <- app_assoc. rewrite (nth_error_app2 path _ (n := Datatypes.S (length path + 0) + 19)), (nth_error_app2 path _ (n := Datatypes.S (length path + 0) + 20)) by lia.
  replace (Datatypes.S (length path + 0) + 19 - length path)%nat with 20%nat by lia.
  replace (Datatypes.S (length path + 0) + 20 - length path)%nat with 21%nat by lia.
  rewrite <- app_comm_cons.
  set (l := 47 :: (name_bytes _ satid rl ++ [0])). assert (A1 : nth_error l 20 = Some (48 + rl / 10)) by reflexivity. assert (A2 : nth_error l 21 = Some (48 + rl mod 10)) by reflexivity.
  rewrite A1, A2. f_equal.
  pose proof (Z.div_pos rl 10 ltac:(lia) ltac:(lia)). pose proof (Z.mod_pos_bound rl 10 ltac:(lia)). assert (rl / 10 < 10) by (apply Z.div_lt_upper_bound; lia).
  assert (V : digits_val [48 + rl / 10; 48 + rl mod 10] = rl) by (unfold digits_val; cbn [fold_left]; pose proof (Z.div_mod rl 10); lia).
  unfold scan_i32. pose proof (scan_int_digits (- 2 ^ 31) (2 ^ 31 - 1) [48 + rl / 10; 48 + rl mod 10] []) as X. rewrite app_nil_r, V in X.
  rewrite X; [reflexivity|discriminate| |exact I|lia]. unfold is_dig. repeat constructor; apply andb_true_iff; rewrite !Z.leb_le; lia.
Qed.
Lemma resolve_noslash fn : Forall (fun c => c <> 47) fn -> resolve_rl fn = UB.
Proof. intros F. unfold resolve_rl. rewrite no_slash by exact F. reflexivity. Qed.

(** ** the stream *)
Section Stream.
  Context {C : Type}.
  Variable EOF : Z.
  Notation block := (block C).
  Notation st := (st C).
  Implicit Types (s : st) (b x : block).

  Lemma increasing_app (l1 l2 : list block) : increasing (l1 ++ l2) -> increasing l2.
  Proof. induction l1; simpl; [auto|]. intros (_ & H). auto. Qed.
  Lemma initialize_ok s b0 b1 b2 b3 rest more : files C s = (b0 :: b1 :: b2 :: b3 :: rest) :: more ->
    exists s', initialize C EOF s = Ok (0, s') /\ buffered s' b0 b1 b2 (b3 :: rest) /\ files C s' = files C s /\ dir C s' = dir C s.
  Proof.
    intros E. destruct s as [fl di mi un ((a0, a1), a2) ((d0, d1), d2)]. cbn in E. subst fl.
    exists (mkSt C ((b0 :: b1 :: b2 :: b3 :: rest) :: more) di (Some b3) rest (ep C b0, ep C b1, ep C b2) (co C b0, co C b1, co C b2)).
    split; [|split; [repeat split|split; reflexivity]].
    unfold initialize, set_begin. cbn [files bind]. cbn [collect mit setc co h c unread files dir negb Z.eqb take_header seth mepoch advance Z.add]. reflexivity.
  Qed.
  Lemma initialize_short s f more : files C s = f :: more -> f <> [] -> (length f < 4)%nat -> exists s', initialize C EOF s = Ok (1, s').
  Proof.
    intros E N L. destruct s as [fl di mi un ((a0, a1), a2) ((d0, d1), d2)]. cbn in E. subst fl.
    destruct f as [|b0 [|b1 [|b2 [|b3 f]]]]; [congruence| | | |cbn in L; lia]; unfold initialize, set_begin; cbn [files bind]; cbn [collect mit setc co h c unread files dir negb Z.eqb take_header seth mepoch advance Z.add Pos.eqb Z.pos_sub Z.opp]; eexists; reflexivity.
  Qed.

  (** a query answered from the buffers or by reading one more block *)
  Lemma query_near s x0 x1 x2 rest t : buffered s x0 x1 x2 rest -> increasing (x0 :: x1 :: x2 :: rest) ->
    ep C x0 <= t -> match rest with b :: _ => t < ep C b | [] => t < ep C x2 end ->
    exists p s', coefficients_at C EOF t s = Ok (Some p, s') /\ bracket (x0 :: x1 :: x2 :: rest) t p /\ files C s' = files C s /\ dir C s' = dir C s /\
      (s' = s /\ t < ep C x2 \/ exists b r, rest = b :: r /\ ep C x2 <= t /\ buffered s' x1 x2 b r).
  Proof.
    intros B I L U. destruct s as [fl di mi un hh cc]. destruct B as (H & K & M). cbn in H, K, M. subst hh cc. unfold coefficients_at. cbn [h].
    destruct (Z.leb_spec (ep C x0) t); [|lia]. cbn [andb].
    destruct (Z.ltb_spec t (ep C x1)).
    - eexists _, _. split; [reflexivity|]. split; [exists [], x0, x1, (x2 :: rest); repeat split; auto|]. repeat (split; [reflexivity|]). left. split; [reflexivity|]. simpl in I. destruct I as (_ & I1 & _). apply Forall_cons_iff in I1 as (I1 & _). lia.
    - destruct (Z.leb_spec (ep C x1) t); [|lia]. cbn [andb]. destruct (Z.ltb_spec t (ep C x2)).
      + eexists _, _. split; [reflexivity|]. split; [exists [x0], x1, x2, rest; repeat split; auto|]. auto.
      + destruct rest as [|b r]; [lia|]. destruct M as (-> & ->).
        unfold hunt_range. cbn [h mit mepoch]. destruct (Z.leb_spec (ep C x0) t); [|lia]. destruct (Z.ltb_spec t (ep C x1)); [lia|]. destruct (Z.leb_spec (ep C x1) t); [|lia].
        destruct (Z.ltb_spec t (ep C x2)); [lia|]. destruct (Z.leb_spec (ep C x2) t); [|lia]. cbn [andb]. destruct (Z.ltb_spec t (ep C b)); [|lia].
        destruct r as [|b' r]; cbn; eexists _, _; (split; [reflexivity|]); (split; [exists [x0; x1], x2, b; eexists; repeat split; auto|]); (repeat (split; [reflexivity|])); right; eexists _, _; (split; [reflexivity|]); (split; [assumption|]); unfold buffered; cbn; auto.
  Qed.

  (** going back to the start of the file *)
  Lemma query_back s x0 x1 x2 rest b0 b1 b2 b3 frest more t : buffered s x0 x1 x2 rest -> increasing (x0 :: x1 :: x2 :: rest) ->
    files C s = (b0 :: b1 :: b2 :: b3 :: frest) :: more -> increasing (b0 :: b1 :: b2 :: b3 :: frest) ->
    t < ep C x0 -> ep C b0 <= t < ep C b3 ->
    exists p s', coefficients_at C EOF t s = Ok (Some p, s') /\ bracket (b0 :: b1 :: b2 :: b3 :: frest) t p /\ files C s' = files C s /\ dir C s' = dir C s /\
      (t < ep C b2 /\ buffered s' b0 b1 b2 (b3 :: frest) \/ ep C b2 <= t /\ buffered s' b1 b2 b3 frest).
  Proof.
    intros B I F J L (T0 & T3).
    destruct (initialize_ok s _ _ _ _ _ _ F) as (s1 & E1 & B1 & F1 & D1).
    assert (Q : exists i s', hunt_range C EOF 0 t s1 = Ok (i, s') /\ (i = 0 \/ i = 1) /\ bracket (b0 :: b1 :: b2 :: b3 :: frest) t (pair_at C i s') /\
      files C s' = files C s1 /\ dir C s' = dir C s1 /\ (t < ep C b2 /\ buffered s' b0 b1 b2 (b3 :: frest) \/ ep C b2 <= t /\ buffered s' b1 b2 b3 frest)).
    { clear E1 F L I B. destruct s1 as [fl di mi un hh cc]. destruct B1 as (H & K & M & N). cbn in H, K, M, N. subst hh cc mi un.
      cbn [hunt_range h mit mepoch]. destruct (Z.leb_spec (ep C b0) t); [|lia]. cbn [andb]. destruct (Z.ltb_spec t (ep C b1)).
      - eexists _, _. split; [reflexivity|]. split; [auto|]. split; [exists [], b0, b1; eexists; repeat split; auto|]. repeat (split; [reflexivity|]). left. split; [simpl in J; destruct J as (_ & J1 & _); apply Forall_cons_iff in J1 as (J1 & _); lia|]. unfold buffered; cbn; auto.
      - destruct (Z.leb_spec (ep C b1) t); [|lia]. cbn [andb]. destruct (Z.ltb_spec t (ep C b2)).
        + eexists _, _. split; [reflexivity|]. split; [auto|]. split; [exists [b0], b1, b2; eexists; repeat split; auto|]. repeat (split; [reflexivity|]). left. split; [simpl in J; destruct J as (_ & J1 & _); apply Forall_cons_iff in J1 as (J1 & _); lia|]. unfold buffered; cbn; auto.
        + destruct (Z.leb_spec (ep C b2) t); [|lia]. cbn [andb]. destruct (Z.ltb_spec t (ep C b3)); [|lia].
          destruct frest as [|b4 fr]; cbn; eexists _, _; (split; [reflexivity|]); (split; [auto|]); (split; [exists [b0; b1], b2, b3; eexists; repeat split; auto|]); (repeat (split; [reflexivity|])); right; (split; [assumption|]); unfold buffered; cbn; auto. }
    destruct Q as (i & s' & E & Hi & P & F' & D' & B').
    exists (pair_at C i s'), s'. split; [|split; [exact P|split; [congruence|split; [congruence|exact B']]]].
    destruct B as (H & _). unfold coefficients_at. rewrite H. simpl in I. destruct I as (I0 & I1 & _).
    apply Forall_cons_iff in I0 as (I01 & I0). apply Forall_cons_iff in I0 as (I02 & _).
    destruct (Z.leb_spec (ep C x0) t); [lia|]. destruct (Z.leb_spec (ep C x1) t); [lia|]. cbn [andb].
    unfold hunt_range at 1. rewrite H. destruct (Z.leb_spec (ep C x0) t); [lia|]. destruct (Z.leb_spec (ep C x1) t); [lia|]. destruct (Z.leb_spec (ep C x2) t); [lia|]. cbn [andb].
    destruct (Z.ltb_spec t (ep C x0)); [|lia]. rewrite F. destruct (Z.ltb_spec t (ep C b0)); [lia|]. rewrite E1. cbn [bind negb Z.eqb].
    fold (hunt_range C EOF 0 t s1). rewrite E. cbn [bind]. destruct Hi as [-> | ->]; reflexivity.
  Qed.

  (** before the first block *)
  Lemma query_before s x0 x1 x2 rest f fs more t : buffered s x0 x1 x2 rest -> increasing (x0 :: x1 :: x2 :: rest) ->
    files C s = (f :: fs) :: more -> t < ep C x0 -> t < ep C f -> coefficients_at C EOF t s = Ok (None, s).
  Proof.
    intros (H & _) I F L T. unfold coefficients_at, hunt_range. rewrite H, F. simpl in I. destruct I as (I0 & I1 & _).
    apply Forall_cons_iff in I0 as (I01 & I0). apply Forall_cons_iff in I0 as (I02 & _).
    destruct (Z.leb_spec (ep C x0) t); [lia|]. destruct (Z.leb_spec (ep C x1) t); [lia|]. destruct (Z.leb_spec (ep C x2) t); [lia|]. cbn [andb].
    destruct (Z.ltb_spec t (ep C x0)); [|lia]. destruct (Z.ltb_spec t (ep C f)); [|lia]. reflexivity.
  Qed.
  (** after the last block, no directory *)
  Lemma query_after s x0 x1 x2 t : buffered s x0 x1 x2 [] -> increasing [x0; x1; x2] -> dir C s = false -> ep C x2 <= t -> coefficients_at C EOF t s = Ok (None, s).
  Proof.
    intros (H & _ & M & _) I D L. unfold coefficients_at, hunt_range. rewrite H, M. simpl in I. destruct I as (I0 & I1 & _).
    apply Forall_cons_iff in I0 as (I01 & I0). apply Forall_cons_iff in I0 as (I02 & _). apply Forall_cons_iff in I1 as (I12 & _).
    destruct (Z.ltb_spec t (ep C x1)); [lia|]. destruct (Z.ltb_spec t (ep C x2)); [lia|]. rewrite !andb_false_r. destruct (Z.ltb_spec t (ep C x0)); [lia|].
    destruct (Z.leb_spec (ep C x2) t); [|lia]. cbn. rewrite D. reflexivity.
  Qed.
  (** after the last block, next file of the directory *)
  Lemma query_feed s x0 x1 x2 f n0 n1 nrest more t : buffered s x0 x1 x2 [] -> increasing (x0 :: x1 :: x2 :: n0 :: n1 :: nrest) -> dir C s = true ->
    files C s = f :: (n0 :: n1 :: nrest) :: more -> ep C x2 <= t < ep C n1 ->
    exists p s', coefficients_at C EOF t s = Ok (Some p, s') /\ bracket (x2 :: n0 :: n1 :: nrest) t p /\ files C s' = (n0 :: n1 :: nrest) :: more /\ dir C s' = true /\
      (t < ep C n0 /\ buffered s' x1 x2 n0 (n1 :: nrest) \/ ep C n0 <= t /\ buffered s' x2 n0 n1 nrest).
  Proof.
    intros B I D F (T0 & T1). destruct s as [fl di mi un hh cc]. destruct B as (H & K & M & N). cbn in H, K, M, N, D, F. subst fl di mi un hh cc.
    simpl in I. destruct I as (I0 & I1 & I2 & I3 & _).
    apply Forall_cons_iff in I0 as (I01 & I0). apply Forall_cons_iff in I0 as (I02 & _). apply Forall_cons_iff in I1 as (I12 & _). apply Forall_cons_iff in I2 as (I23 & _). apply Forall_cons_iff in I3 as (I34 & _).
    unfold coefficients_at. cbn [h]. unfold hunt_range at 1. cbn [h mit].
    destruct (Z.ltb_spec t (ep C x1)); [lia|]. destruct (Z.ltb_spec t (ep C x2)); [lia|]. rewrite !andb_false_r. destruct (Z.ltb_spec t (ep C x0)); [lia|].
    destruct (Z.leb_spec (ep C x2) t); [|lia]. cbn [andb bind Z.leb Z.compare Z.eqb Pos.eqb dir]. unfold feed_next_file. cbn [files bind shift set_begin collect advance take_header mit unread h c setc seth mepoch negb Z.eqb].
    cbn. destruct (Z.leb_spec (ep C x1) t); [|lia]. destruct (Z.ltb_spec t (ep C x2)); [lia|]. destruct (Z.leb_spec (ep C x2) t); [|lia]. cbn [andb].
    destruct (Z.ltb_spec t (ep C n0)).
    - cbn. eexists _, _. split; [reflexivity|]. split; [exists [], x2, n0; eexists; repeat split; auto|]. repeat (split; [reflexivity|]). left. split; [assumption|]. unfold buffered; cbn; auto.
    - destruct (Z.leb_spec (ep C n0) t); [|lia]. cbn [andb]. unfold mepoch. cbn [mit]. destruct (Z.ltb_spec t (ep C n1)); [|lia].
      destruct nrest as [|n2 nr]; cbn; eexists _, _; (split; [reflexivity|]); (split; [exists [x2], n0, n1; eexists; repeat split; auto|]); (repeat (split; [reflexivity|])); right; (split; [assumption|]); unfold buffered; cbn; auto.
  Qed.

  (** *** sequences of queries *)
  Lemma increasing_mid (l1 l2 : list block) b : increasing (l1 ++ b :: l2) -> Forall (fun q => ep C b < ep C q) l2.
  Proof. intros H. apply increasing_app in H. apply H. Qed.
  Lemma increasing_pre (l1 l2 : list block) b : increasing (l1 ++ b :: l2) -> Forall (fun q => ep C q < ep C b) l1.
  Proof.
    induction l1 as [|a l1 IH]; simpl; [constructor|]. intros (F & H). constructor; [|auto]. apply Forall_app in F as (_ & F). apply Forall_cons_iff in F. tauto.
  Qed.
  Lemma increasing_front (l1 l2 : list block) : increasing (l1 ++ l2) -> increasing l1.
  Proof. induction l1 as [|a l1 IH]; simpl; [auto|]. intros (F & H). apply Forall_app in F as (F & _). auto. Qed.
  Lemma spaced_at d (l1 l2 : list block) a b : spaced d (l1 ++ a :: b :: l2) -> d <= ep C b - ep C a.
  Proof. induction l1 as [|x l1 IH]; [simpl; tauto|]. intros H. apply IH. destruct l1; simpl in *; tauto. Qed.
  Lemma bracket_app (pre l post : list block) t p : bracket l t p -> bracket (pre ++ l ++ post) t p.
  Proof. intros (l1 & b1 & b2 & l2 & -> & H). exists (pre ++ l1), b1, b2, (l2 ++ post). split; [|exact H]. rewrite <- !app_assoc. reflexivity. Qed.

  (** two brackets of the same epoch are the same *)
  Lemma bracket_unique (l : list block) t p q : increasing l -> bracket l t p -> bracket l t q -> p = q.
  Proof.
    intros I (l1 & b1 & b2 & l2 & -> & T & ->) (m1 & c1 & c2 & m2 & E & U & ->).
    assert (X : forall (l1 m1 : list block) b1 b2 l2 c1 c2 m2, increasing (l1 ++ b1 :: b2 :: l2) -> l1 ++ b1 :: b2 :: l2 = m1 ++ c1 :: c2 :: m2 ->
      ep C b1 <= t < ep C b2 -> ep C c1 <= t < ep C c2 -> b1 = c1 /\ b2 = c2).
    { clear. induction l1 as [|x l1 IH]; intros [|y m1] b1 b2 l2 c1 c2 m2 I E T U; simpl in E.
      - injection E as -> -> _. auto.
      - exfalso. injection E as -> E. destruct m1 as [|z m1]; simpl in E; injection E as E1 E2; subst.
        + lia.
        + simpl in I. destruct I as (_ & I & _). apply Forall_app in I as (_ & I). apply Forall_cons_iff in I as (I & _). lia.
      - exfalso. injection E as -> E. destruct l1 as [|z l1]; simpl in E; injection E as E1 E2; subst.
        + lia.
        + simpl in I. destruct I as (_ & I & _). apply Forall_app in I as (_ & I). apply Forall_cons_iff in I as (I & _). lia.
      - injection E as _ E. simpl in I. destruct I as (_ & I). exact (IH m1 _ _ _ _ _ _ I E T U). }
    destruct (X _ _ _ _ _ _ _ _ I E T U) as (-> & ->). reflexivity.
  Qed.

  (** position of the stream in the blocks of all files, and last epoch asked for *)
  Definition position (tl : list block) (t : Z) (s : st) : Prop := exists pre x0 x1 x2 rest f more,
    tl = pre ++ x0 :: x1 :: x2 :: rest ++ concat more /\ buffered s x0 x1 x2 rest /\ files C s = f :: more /\ ep C x0 <= t < ep C x2 /\
    Forall (fun g => (2 <= length g)%nat) more /\ (dir C s = true \/ more = []).
  Lemma step_ok d tl t u s : increasing tl -> spaced d tl -> position tl t s -> t <= u <= t + d -> (exists b, In b tl /\ u < ep C b) ->
    exists p s', coefficients_at C EOF u s = Ok (Some p, s') /\ bracket tl u p /\ position tl u s'.
  Proof.
    intros I SP (pre & x0 & x1 & x2 & rest & f & more & E & B & F & (T0 & T2) & G & D) U (z & Z1 & Z2).
    assert (I' : increasing (x0 :: x1 :: x2 :: rest ++ concat more)) by (rewrite E in I; apply increasing_app in I; exact I).
    assert (Iw : increasing (x0 :: x1 :: x2 :: rest)) by (apply (increasing_front (x0 :: x1 :: x2 :: rest) (concat more)); exact I').
    assert (I12 : ep C x1 < ep C x2 /\ ep C x0 < ep C x1).
    { simpl in I'. destruct I' as (A1 & A2 & _). apply Forall_cons_iff in A1 as (A1 & _). apply Forall_cons_iff in A2 as (A2 & _). auto. }
    assert (W : forall v, bracket (x0 :: x1 :: x2 :: rest) u v -> bracket tl u v).
    { intros v V. rewrite E. apply (bracket_app pre _ (concat more)) in V. exact V. }
    destruct rest as [|b r].
    - destruct (Z_lt_ge_dec u (ep C x2)) as [L|L].
      + destruct (query_near s x0 x1 x2 [] u B Iw ltac:(lia) L) as (p & s' & Q & P & F' & D' & [(-> & _)|(b & r & R & _)]); [|discriminate].
        exists p, s. split; [exact Q|]. split; [apply W, P|]. exists pre, x0, x1, x2, [], f, more. repeat split; try assumption; try lia; apply B.
      + destruct more as [|n more].
        * exfalso. rewrite E in Z1, I. cbn [concat app] in *. apply in_app_or in Z1 as [Z1|Z1].
          -- pose proof (increasing_pre pre [x1; x2] x0 I) as Y. rewrite Forall_forall in Y. specialize (Y _ Z1). lia.
          -- destruct Z1 as [<-|[<-|[<-|[]]]]; lia.
        * apply Forall_cons_iff in G as (G1 & G). destruct n as [|n0 [|n1 nr]]; [simpl in G1; lia|simpl in G1; lia|].
          destruct D as [D|D]; [|discriminate].
          assert (N01 : d <= ep C n0 - ep C x2) by (rewrite E in SP; apply (spaced_at d (pre ++ [x0; x1]) ((n1 :: nr) ++ concat more)); rewrite <- app_assoc; exact SP).
          assert (L1 : ep C n0 < ep C n1).
          { apply (increasing_app [x0; x1; x2]) in I'. simpl in I'. destruct I' as (A & _). apply Forall_cons_iff in A. tauto. }
          assert (In5 : increasing (x0 :: x1 :: x2 :: n0 :: n1 :: nr)) by (apply (increasing_front (x0 :: x1 :: x2 :: n0 :: n1 :: nr) (concat more)); exact I').
          destruct (query_feed s x0 x1 x2 f n0 n1 nr more u B In5 D F ltac:(lia)) as (p & s' & Q & P & F' & D' & [(L0 & B')|(L0 & B')]); [|lia].
          exists p, s'. split; [exact Q|]. split.
          -- rewrite E. apply (bracket_app (pre ++ [x0; x1]) _ (concat more)) in P. rewrite <- !app_assoc in P. exact P.
          -- exists (pre ++ [x0]), x1, x2, n0, (n1 :: nr), (n0 :: n1 :: nr), more.
             split; [rewrite E, <- app_assoc; reflexivity|]. repeat split; try apply B'; try assumption; try lia. left; exact D'.
    - assert (N : d <= ep C b - ep C x2) by (rewrite E in SP; apply (spaced_at d (pre ++ [x0; x1]) (r ++ concat more)); rewrite <- app_assoc; exact SP).
      assert (Ub : u < ep C b) by lia.
      destruct (query_near s x0 x1 x2 (b :: r) u B Iw ltac:(lia) Ub) as (p & s' & Q & P & F' & D' & [(-> & L)|(b' & r' & R & L & B')]).
      + exists p, s. split; [exact Q|]. split; [apply W, P|]. exists pre, x0, x1, x2, (b :: r), f, more. repeat split; try assumption; try lia; apply B.
      + injection R as <- <-. exists p, s'. split; [exact Q|]. split; [apply W, P|]. exists (pre ++ [x0]), x1, x2, b, r, f, more.
        split; [rewrite E, <- app_assoc; reflexivity|]. repeat split; try apply B'; try assumption; try lia; try congruence.
  Qed.
  (** answers to a list of queries *)
  Fixpoint answers (ts : list Z) (s : st) : res (list (option ((Z * C) * (Z * C)))) :=
    match ts with
    | [] => Ok []
    | t :: ts' => ' (a, s') <- coefficients_at C EOF t s ;; r <- answers ts' s' ;; Ok (a :: r)
    end.
  Lemma steps_ok d tl t ts s : increasing tl -> spaced d tl -> position tl t s -> stepping d t ts -> Forall (fun u => exists b, In b tl /\ u < ep C b) ts ->
    exists ps, answers ts s = Ok (map Some ps) /\ Forall2 (bracket tl) ts ps.
  Proof.
    intros I SP. revert t s; induction ts as [|u ts IH]; intros t s P H F; [exists []; split; [reflexivity|constructor]|].
    destruct H as (H & H'). apply Forall_cons_iff in F as (F1 & F). destruct (step_ok d tl t u s I SP P H F1) as (p & s' & Q & B & P').
    destruct (IH u s' P' H' F) as (ps & A & L). exists (p :: ps). split; [|constructor; assumption]. cbn [answers map]. rewrite Q. cbn [bind]. rewrite A. reflexivity.
  Qed.
  Lemma sequence_ok d s b0 b1 b2 b3 fr more t ts : files C s = (b0 :: b1 :: b2 :: b3 :: fr) :: more -> increasing (concat (files C s)) -> spaced d (concat (files C s)) ->
    Forall (fun g => (2 <= length g)%nat) more -> (dir C s = true \/ more = []) ->
    ep C b0 <= t < ep C b3 -> stepping d t ts -> Forall (fun u => exists b, In b (concat (files C s)) /\ u < ep C b) ts ->
    exists s' ps, initialize C EOF s = Ok (0, s') /\ answers (t :: ts) s' = Ok (map Some ps) /\ Forall2 (bracket (concat (files C s))) (t :: ts) ps.
  Proof.
    intros F I SP G D T ST L. destruct (initialize_ok s _ _ _ _ _ _ F) as (s1 & E1 & B1 & F1 & D1). exists s1.
    assert (Iw : increasing (b0 :: b1 :: b2 :: b3 :: fr)).
    { rewrite F in I. apply (increasing_front (b0 :: b1 :: b2 :: b3 :: fr) (concat more)). exact I. }
    set (tl := concat (files C s)) in *.
    assert (Etl : tl = b0 :: b1 :: b2 :: (b3 :: fr) ++ concat more) by (unfold tl; rewrite F; reflexivity).
    destruct (query_near s1 b0 b1 b2 (b3 :: fr) t B1 Iw (proj1 T) (proj2 T)) as (p & s' & Q & P & F' & D' & X).
    assert (P' : bracket tl t p) by (rewrite Etl; apply (bracket_app [] _ (concat more)) in P; exact P).
    assert (Y : position tl t s').
    { destruct X as [(-> & L2)|(b & r & R & L2 & B')].
      - exists [], b0, b1, b2, (b3 :: fr), (b0 :: b1 :: b2 :: b3 :: fr), more. repeat split; try apply B1; try assumption; try lia; try congruence.
      - injection R as <- <-. simpl in Iw. destruct Iw as (A0 & A1 & A2 & _). apply Forall_cons_iff in A1 as (A1 & _).
        exists [b0], b1, b2, b3, fr, (b0 :: b1 :: b2 :: b3 :: fr), more. repeat split; try apply B'; try assumption; try lia; try congruence. }
    destruct (steps_ok d tl t ts s' I SP Y ST L) as (ps & A & FF). exists (p :: ps). split; [exact E1|]. split; [|constructor; assumption].
    cbn [answers map]. rewrite Q. cbn [bind]. rewrite A. reflexivity.
  Qed.
End Stream.

(** ** blocks *)
Lemma skipws_word s w r : sep s -> wordp w -> skipws (s ++ w ++ r) = w ++ r.
Proof.
  intros S (N & F). induction S as [|c s H S IH]; cbn [app skipws].
  - destruct w as [|c w]; [congruence|]. cbn [app skipws]. cbn [firstn] in F. apply Forall_cons_iff in F as ((A & B) & _).
    destruct (Z.eqb_spec c 32); [congruence|]. destruct (Z.eqb_spec c 43); [congruence|]. reflexivity.
  - destruct H as [-> | ->]; exact IH.
Qed.
Lemma skipws_blank s : skipws (32 :: s) = skipws s.
Proof. reflexivity. Qed.

Section Blocks.
  Variable sdbl : list Z -> option R * list Z.
  Hypothesis SD : word_scanner sdbl.
  Implicit Types (cs : coeffs).

  (** effect of one line *)
  Definition apply1 (N M : Z) cs (e : entry) : coeffs :=
    let '(l, m, c, s) := e in if within_limits N M e then put (put cs l m (fun x => (c, snd x))) l m (fun x => (fst x, s)) else cs.
  Lemma one_line_ok N M line l m c s cs dc oc : coef_line sdbl line l m c s -> 0 <= m <= l ->
    one_line sdbl N M line cs dc oc =
      Ok (if (l <=? N) && (m <=? M) then (apply1 N M cs (l, m, c, s), 0, Z.max dc l, Z.max oc m) else (cs, 0, dc, oc)).
  Proof.
    intros (s1 & w1 & s2 & w2 & s3 & w3 & s4 & w4 & rest & -> & S1 & S2 & S3 & S4 & W1 & W2 & W3 & W4 & B & R1 & R2 & R3 & R4 & _) V.
    unfold one_line. rewrite (skipws_word s1 w1 _ S1 W1). rewrite (scan_int_word _ _ w1 l R1) by exact eq_refl. rewrite skipws_blank, (skipws_word s2 w2 _ S2 W2).
    rewrite (scan_int_word _ _ w2 m R2) by exact eq_refl. cbn [Z.add Z.eqb]. rewrite andb_true_r. unfold apply1, within_limits.
    destruct ((l <=? N) && (m <=? M)); [|reflexivity].
    replace ((0 <=? m) && (m <=? l)) with true by (symmetry; apply andb_true_iff; rewrite !Z.leb_le; lia). cbn [negb].
    rewrite skipws_blank, (skipws_word s3 w3 _ S3 W3), (SD w3 c R3) by exact eq_refl. rewrite skipws_blank, (skipws_word s4 w4 _ S4 W4), (SD w4 s R4) by exact B. reflexivity.
  Qed.
  Lemma one_line_bad N M line l m c s cs dc oc : coef_line sdbl line l m c s -> l <= N -> m <= M -> ~ 0 <= m <= l -> one_line sdbl N M line cs dc oc = UB.
  Proof.
    intros (s1 & w1 & s2 & w2 & s3 & w3 & s4 & w4 & rest & -> & S1 & S2 & S3 & S4 & W1 & W2 & W3 & W4 & B & R1 & R2 & R3 & R4 & _) L1 L2 V.
    unfold one_line. rewrite (skipws_word s1 w1 _ S1 W1). rewrite (scan_int_word _ _ w1 l R1) by exact eq_refl. rewrite skipws_blank, (skipws_word s2 w2 _ S2 W2).
    rewrite (scan_int_word _ _ w2 m R2) by exact eq_refl. cbn [Z.add Z.eqb]. rewrite andb_true_r.
    destruct (Z.leb_spec l N); [|lia]. destruct (Z.leb_spec m M); [|lia]. cbn [andb].
    destruct (Z.leb_spec 0 m); cbn [andb negb]; [|reflexivity]. destruct (Z.leb_spec m l); cbn [negb]; [lia|reflexivity].
  Qed.
  Lemma coef_line_short line l m c s : coef_line sdbl line l m c s -> (length line < 124)%nat.
  Proof. intros (s1 & w1 & s2 & w2 & s3 & w3 & s4 & w4 & rest & H). decompose [and] H. assumption. Qed.

  Definition more_lines (tail : list (list Z)) (term : bool) : bool := match tail with [] => term | _ => true end.
  Lemma getline_ok line tail term : (length line < 124)%nat -> getline MAXL (mkS (line :: tail) term true) = (Some line, mkS tail term (more_lines tail term)).
  Proof. intros L. unfold getline, MAXL. cbn [sgood negb slines sterm]. destruct (Z.leb_spec 124 (Z.of_nat (length line))); [lia|]. reflexivity. Qed.

  Lemma read_lines_ok N M term tail : forall lines es n cs dc oc, lines_say sdbl lines es -> Forall valid_entry es -> more_lines tail term = true ->
    exists dc' oc', read_lines sdbl N M (length lines + n) (mkS (lines ++ tail) term true) cs dc oc =
      read_lines sdbl N M n (mkS tail term true) (fold_left (apply1 N M) es cs) dc' oc' /\
      dc' = Z.max dc (top_degree (filter (within_limits N M) es)) /\ oc' = Z.max oc (top_order (filter (within_limits N M) es)) \/ (dc < 0 \/ oc < 0).
  Proof.
    intros lines es n cs dc oc H V G. revert n cs dc oc V. induction H as [|line e lines es E H IH]; intros n cs dc oc V.
    - destruct (Z_lt_ge_dec dc 0); [exists 0, 0; tauto|]. destruct (Z_lt_ge_dec oc 0); [exists 0, 0; tauto|].
      exists dc, oc. left. cbn. repeat split; lia.
    - apply Forall_cons_iff in V as (V1 & V). destruct e as (((l & m) & c) & s). cbn in E, V1.
      destruct (Z_lt_ge_dec dc 0); [exists 0, 0; tauto|]. destruct (Z_lt_ge_dec oc 0); [exists 0, 0; tauto|].
      cbn [length app Nat.add read_lines]. rewrite (getline_ok _ _ _ (coef_line_short _ _ _ _ _ E)).
      assert (ML : more_lines (lines ++ tail) term = true) by (destruct lines; [exact G|reflexivity]). rewrite ML.
      rewrite (one_line_ok N M line l m c s cs dc oc E V1). cbn [filter fold_left within_limits].
      destruct ((l <=? N) && (m <=? M)) eqn:W; cbn [bind Z.eqb].
      + destruct (IH n (apply1 N M cs (l, m, c, s)) (Z.max dc l) (Z.max oc m) V) as (dc' & oc' & [(A & B & C)|X]); [|lia].
        exists dc', oc'. left. split; [exact A|]. cbn [top_degree top_order fold_right]. fold (top_degree (filter (within_limits N M) es)). fold (top_order (filter (within_limits N M) es)). lia.
      + replace (apply1 N M cs (l, m, c, s)) with cs by (unfold apply1, within_limits; rewrite W; reflexivity). apply IH, V.
  Qed.

  Lemma apply_value N M es cs n k : fold_left (apply1 N M) es cs n k =
    match value_of (filter (within_limits N M) es) n k with Some v => v | None => cs n k end.
  Proof.
    revert cs; induction es as [|e es IH]; intros cs; [reflexivity|]. cbn [fold_left filter]. rewrite IH. destruct e as (((l & m) & c) & s). unfold apply1.
    destruct (within_limits N M (l, m, c, s)) eqn:W; [|reflexivity]. cbn [value_of]. destruct (value_of (filter (within_limits N M) es) n k); [reflexivity|].
    unfold put. destruct ((n =? l) && (k =? m)); reflexivity.
  Qed.

  Lemma top_nonneg (es : list entry) : 0 <= top_degree es /\ 0 <= top_order es.
  Proof. unfold top_degree, top_order. induction es as [|(((l & m) & c) & s) q IH]; cbn [fold_right]; lia. Qed.
  Lemma collect_ok fd cd co N M n lines tail term es cs : lines_say sdbl lines es -> Forall valid_entry es -> more_lines tail term = true ->
    n = Z.of_nat (length lines) -> M <= N <= fd -> N <= cd -> M <= co ->
    let inside := filter (within_limits N M) es in
    exists cs', collect_coeffs sdbl fd cd co N M n (mkS (lines ++ tail) term true) cs =
      Ok ((if (top_degree inside =? N) && (top_order inside =? M) then 0 else -1), cs', mkS tail term true) /\
      forall l m, cs' l m = match value_of inside l m with Some v => v | None => (0%R, 0%R) end.
  Proof.
    intros H V G -> L1 L2 L3 inside. unfold collect_coeffs.
    destruct (Z.ltb_spec N M); [lia|]. destruct (Z.ltb_spec fd N); [lia|]. destruct (Z.ltb_spec cd N); [lia|]. destruct (Z.ltb_spec co M); [lia|]. cbn [orb].
    rewrite Nat2Z.id. destruct (read_lines_ok N M term tail lines es 0 zero 0 0 H V G) as (dc & oc & [(A & B & C)|X]); [|lia].
    rewrite Nat.add_0_r in A. rewrite A. cbn [read_lines bind Z.eqb negb orb sgood]. fold inside in B, C.
    pose proof (top_nonneg inside) as (T1 & T2).
    rewrite B, C, !Z.max_r by assumption. eexists. split.
    - destruct (top_degree inside =? N), (top_order inside =? M); reflexivity.
    - intros l m. rewrite apply_value. reflexivity.
  Qed.
  (** fewer lines than announced *)
  Lemma collect_truncated fd cd co N M n lines term es cs : lines_say sdbl lines es -> Forall valid_entry es -> term = true ->
    Z.of_nat (length lines) < n -> exists cs' s', collect_coeffs sdbl fd cd co N M n (mkS lines term true) cs = Ok (1, cs', s').
  Proof.
    intros H V -> L. unfold collect_coeffs. destruct ((N <? M) || (fd <? N)); [repeat eexists|]. destruct ((cd <? N) || (co <? M)); [repeat eexists|].
    destruct (read_lines_ok N M true [] lines es (Z.to_nat (n - Z.of_nat (length lines))) zero 0 0 H V eq_refl) as (dc & oc & [(A & _)|X]); [|lia].
    rewrite app_nil_r in A. replace (length lines + Z.to_nat (n - Z.of_nat (length lines)))%nat with (Z.to_nat n) in A by lia. rewrite A.
    assert (exists k, Z.to_nat (n - Z.of_nat (length lines)) = S k) as (k & ->) by (exists (Z.to_nat (n - Z.of_nat (length lines) - 1)); lia).
    repeat eexists.
  Qed.
  (** a line without a readable degree or order *)
  Definition unreadable (line : list Z) : Prop :=
    (length line < 124)%nat /\ (fst (scan_i32 (skipws line)) = None \/ fst (scan_i32 (skipws (snd (scan_i32 (skipws line))))) = None).
  Lemma one_line_unreadable N M line cs dc oc : unreadable line -> exists e, one_line sdbl N M line cs dc oc = Ok (cs, e, dc, oc) /\ e <> 0.
  Proof.
    intros (_ & U). unfold one_line. destruct (scan_i32 (skipws line)) as (vl, r). cbn [fst snd] in U. destruct (scan_i32 (skipws r)) as (vm, r2). cbn [fst] in U.
    destruct vl, vm; destruct U as [U|U]; try discriminate; cbn [Z.add Z.eqb Pos.eqb Pos.add]; rewrite andb_false_r; eexists; (split; [reflexivity|discriminate]).
  Qed.
  Lemma collect_unreadable fd cd co N M n lines bad tail term es cs : lines_say sdbl lines es -> Forall valid_entry es -> unreadable bad ->
    Z.of_nat (length lines) < n -> exists cs' s', collect_coeffs sdbl fd cd co N M n (mkS (lines ++ bad :: tail) term true) cs = Ok (1, cs', s').
  Proof.
    intros H V U L. unfold collect_coeffs. destruct ((N <? M) || (fd <? N)); [repeat eexists|]. destruct ((cd <? N) || (co <? M)); [repeat eexists|].
    destruct (read_lines_ok N M term (bad :: tail) lines es (Z.to_nat (n - Z.of_nat (length lines))) zero 0 0 H V eq_refl) as (dc & oc & [(A & _)|X]); [|lia].
    replace (length lines + Z.to_nat (n - Z.of_nat (length lines)))%nat with (Z.to_nat n) in A by lia. rewrite A.
    assert (exists k, Z.to_nat (n - Z.of_nat (length lines)) = S k) as (k & ->) by (exists (Z.to_nat (n - Z.of_nat (length lines) - 1)); lia).
    cbn [read_lines]. rewrite (getline_ok _ _ _ (proj1 U)). destruct (one_line_unreadable N M bad (fold_left (apply1 N M) es zero) dc oc U) as (e & -> & E).
    cbn [bind]. destruct (Z.eqb_spec e 0); [congruence|]. cbn [bind]. destruct (Z.eqb_spec e 0); [congruence|]. repeat eexists.
  Qed.
End Blocks.

(** ** ownership *)
(** without moves: every live object points to itself and owns its own array *)
Definition wf (w : swld) : Prop :=
  (forall i o, ofind (objs w) i = Some o -> target o = i /\ exists a, arr o = Some a /\ In a (owned w)) /\
  (forall i j o p a, ofind (objs w) i = Some o -> ofind (objs w) j = Some p -> arr o = Some a -> arr p = Some a -> i = j) /\
  (forall a, In a (owned w) -> (a < fresh w)%nat) /\
  (forall a, In a (owned w) -> exists i o, ofind (objs w) i = Some o /\ arr o = Some a).
Definition unmoved (o : sop) : Prop := match o with MoveNew _ _ | MoveAssign _ _ => False | _ => True end.
Lemma ofind_del l i j : ofind (odel l i) j = if Nat.eqb i j then None else ofind l j.
Proof.
  unfold odel. induction l as [|(k, o) l IH]; cbn [filter ofind fst]; [destruct (Nat.eqb i j); reflexivity|].
  destruct (Nat.eqb_spec i k); cbn [negb].
  - subst k. rewrite IH. destruct (Nat.eqb_spec i j); [reflexivity|]. destruct (Nat.eqb_spec j i); [congruence|reflexivity].
  - cbn [ofind]. rewrite IH. destruct (Nat.eqb_spec j k); [|reflexivity]. destruct (Nat.eqb_spec i j); [congruence|reflexivity].
Qed.
Lemma ofind_set l i o j : ofind (oset l i o) j = if Nat.eqb i j then Some o else ofind l j.
Proof.
  unfold oset. cbn [ofind]. change (filter _ l) with (odel l i). rewrite ofind_del, (Nat.eqb_sym j i). destruct (Nat.eqb i j); reflexivity.
Qed.
Lemma in_existsb a l : In a l -> existsb (Nat.eqb a) l = true.
Proof. intros H. apply existsb_exists. exists a. split; [exact H|apply Nat.eqb_refl]. Qed.
Lemma srun1_ok w o : wf w -> unmoved o -> (exists w', srun1 w o = Ok w' /\ wf w') \/ srun1 w o = Illegal.
Proof.
  intros (W1 & W2 & W3 & W4) U. destruct o as [i| | |i|i]; try contradiction; cbn [srun1].
  - destruct (ofind (objs w) i) eqn:E; [right; reflexivity|]. left. eexists. split; [reflexivity|]. unfold wf. cbn [objs owned fresh]. split; [|split; [|split]].
    + intros j o. rewrite ofind_set. destruct (Nat.eqb_spec i j); [intros [= <-]; cbn; split; [assumption|eauto]|]. intros H. destruct (W1 _ _ H) as (A & a & B & C). split; [exact A|exists a; auto using in_cons].
    + intros j k p q a. rewrite !ofind_set. destruct (Nat.eqb_spec i j), (Nat.eqb_spec i k); intros H1 H2 A1 A2.
      * congruence.
      * injection H1 as <-. injection A1 as <-. destruct (W1 _ _ H2) as (_ & b & B1 & B2). rewrite A2 in B1. injection B1 as <-. specialize (W3 _ B2). lia.
      * injection H2 as <-. injection A2 as <-. destruct (W1 _ _ H1) as (_ & b & B1 & B2). rewrite A1 in B1. injection B1 as <-. specialize (W3 _ B2). lia.
      * eapply W2; eassumption.
    + intros a [<-|H]; [lia|]. specialize (W3 _ H). lia.
    + intros a [<-|H]; [exists i; eexists; rewrite ofind_set, Nat.eqb_refl; split; reflexivity|]. destruct (W4 _ H) as (j & o & A & B). exists j, o. rewrite ofind_set.
      destruct (Nat.eqb_spec i j); [congruence|auto].
  - destruct (ofind (objs w) i) as [o|] eqn:E; [|right; reflexivity]. destruct (W1 _ _ E) as (A & a & B & D). rewrite A, E, B, (in_existsb _ _ D). left. exists w. split; [reflexivity|]. exact (conj W1 (conj W2 (conj W3 W4))).
  - destruct (ofind (objs w) i) as [o|] eqn:E; [|right; reflexivity]. destruct (W1 _ _ E) as (A & a & B & D). rewrite B, (in_existsb _ _ D). left. eexists. split; [reflexivity|].
    unfold wf. cbn [objs owned fresh]. split; [|split; [|split]].
    + intros j p. rewrite ofind_del. destruct (Nat.eqb_spec i j); [discriminate|]. intros H. destruct (W1 _ _ H) as (A' & b & B' & D'). split; [exact A'|]. exists b. split; [exact B'|].
      apply filter_In. split; [exact D'|]. destruct (Nat.eqb_spec a b); [|reflexivity]. subst b. exfalso. apply n. eapply W2; eassumption.
    + intros j k p q b. rewrite !ofind_del. destruct (Nat.eqb i j); [discriminate|]. destruct (Nat.eqb i k); [discriminate|]. apply W2.
    + intros b H. apply filter_In in H as (H & _). apply W3, H.
    + intros b H. apply filter_In in H as (H & N). destruct (W4 _ H) as (j & p & A' & B'). exists j, p. rewrite ofind_del. destruct (Nat.eqb_spec i j); [|auto].
      subst j. rewrite E in A'. injection A' as <-. rewrite B in B'. injection B' as <-. rewrite Nat.eqb_refl in N. discriminate.
Qed.
Lemma wf_empty n : wf (mkW [] [] n).
Proof. repeat split; cbn; try discriminate; contradiction. Qed.
Lemma srun_ok l : Forall unmoved l -> forall w, wf w -> (exists w', srun w l = Ok w' /\ wf w') \/ srun w l = Illegal.
Proof.
  unfold srun. induction 1 as [|o l U F IH]; intros w W; cbn [fold_res]; [left; eauto|].
  destruct (srun1_ok w o W U) as [(w' & -> & W')| ->]; [|right; reflexivity]. cbn [bind]. apply IH, W'.
Qed.
Lemma unmoved_safe l : Forall unmoved l -> srun (mkW [] [] 0) l = Illegal \/
  exists w, srun (mkW [] [] 0) l = Ok w /\ (objs w = [] -> owned w = []).
Proof.
  intros F. destruct (srun_ok l F _ (wf_empty 0)) as [(w & E & W)|E]; [right|left; exact E]. exists w. split; [exact E|]. intros O.
  destruct W as (_ & _ & _ & W4). destruct (owned w) as [|a r]; [reflexivity|]. destruct (W4 a (or_introl eq_refl)) as (i & o & X & _). rewrite O in X. discriminate.
Qed.
