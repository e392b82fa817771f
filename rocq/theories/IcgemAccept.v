(** Lines accepted by the readers of ICGEM files have all their columns. *)
From Coq Require Import Ascii String Reals ZArith List Bool Lia.
From Verif Require Import Base CString FromChars IcgemModel IcgemSpec.
Import ListNotations.
Open Scope Z_scope.

Section Accept.
  Variable sdbl : list Z -> option R * list Z.
  Variable mkdate : Z -> Z -> Z -> Z -> Z -> Z.
  Variables MIN MAX : Z.
  (** two integers and two reals, one after the other *)
  Definition reads (plus : bool) (s : list Z) (l m : Z) (C S : R) (rest : list Z) : Prop := exists r1 r2 r3,
    scan_i32 (skip_ws plus s) = (Some l, r1) /\ scan_i32 (skip_ws plus r1) = (Some m, r2) /\ sdbl (skip_ws plus r2) = (Some C, r3) /\ sdbl (skip_ws plus r3) = (Some S, rest).
  (** yyyymmdd, yyyymmdd.hhmm *)
  Definition reads_date1 (s : list Z) (t : Z) : Prop := exists y m d r1 r2 r3, scan_lim 4 s = (Some y, r1) /\ scan_lim 2 r1 = (Some m, r2) /\ scan_lim 2 r2 = (Some d, r3) /\ t = mkdate y m d 0 0.
  Definition reads_date2 (s : list Z) (t : Z) (rest : list Z) : Prop := exists y m d h i r1 r2 dot r3 r4, scan_lim 4 s = (Some y, r1) /\ scan_lim 2 r1 = (Some m, r2) /\ scan_lim 2 r2 = (Some d, dot :: r3) /\
    scan_lim 2 r3 = (Some h, r4) /\ scan_lim 2 r4 = (Some i, rest) /\ t = mkdate y m d h i.
  Definition holds (e : entry) (k : kind) (l m : Z) (C S : R) : Prop := key e = Some k /\ deg e = Some l /\ ord e = Some m /\ eC e = Some C /\ eS e = Some S.

  Lemma cnt_cases {A} (o : option A) : (exists v, o = Some v /\ cnt o = 0) \/ (o = None /\ cnt o = 1).
  Proof. destruct o; [left; eexists|right]; split; reflexivity. Qed.
  Lemma four_nonneg plus s e n e' r : four sdbl plus s e = (n, e', r) -> 0 <= n.
  Proof.
    unfold four. destruct (scan_i32 _) as (l, r1), (scan_i32 _) as (m, r2), (sdbl _) as (c, r3), (sdbl _) as (x, r4). intros H. injection H as <- _ _.
    destruct l, m, c, x; cbn [cnt]; lia.
  Qed.
  Lemma four_zero plus s e e' r : four sdbl plus s e = (0, e', r) -> exists l m C S, reads plus s l m C S r /\ deg e' = Some l /\ ord e' = Some m /\ eC e' = Some C /\ eS e' = Some S.
  Proof.
    unfold four, reads. destruct (scan_i32 (skip_ws plus s)) as (l, r1) eqn:E1. destruct (scan_i32 (skip_ws plus r1)) as (m, r2) eqn:E2. destruct (sdbl (skip_ws plus r2)) as (c, r3) eqn:E3. destruct (sdbl (skip_ws plus r3)) as (x, r4) eqn:E4.
    intros H. injection H as H <- <-. destruct l as [l|]; [|destruct m, c, x; cbn [cnt] in H; lia]. destruct m as [m|]; [|destruct c, x; cbn [cnt] in H; lia]. destruct c as [c|]; [|destruct x; cbn [cnt] in H; lia]. destruct x as [x|]; [|cbn [cnt] in H; lia].
    exists l, m, c, x. split; [exists r1, r2, r3; repeat split; assumption|]. repeat split; reflexivity.
  Qed.
  Lemma date1_nonneg s n d r : date_v1 mkdate s = (n, d, r) -> 0 <= n.
  Proof. unfold date_v1. destruct (scan_lim 4 _) as (y, r1), (scan_lim 2 _) as (m, r2), (scan_lim 2 _) as (x, r3). destruct y, m, x; intros H; injection H as <- _ _; cbn [cnt]; lia. Qed.
  Lemma date1_zero s d r : date_v1 mkdate s = (0, d, r) -> exists t, d = Some t /\ reads_date1 s t.
  Proof.
    unfold date_v1, reads_date1. destruct (scan_lim 4 s) as (y, r1) eqn:E1. destruct (scan_lim 2 r1) as (m, r2) eqn:E2. destruct (scan_lim 2 r2) as (x, r3) eqn:E3. intros H.
    destruct y as [y|]; [|destruct m, x; injection H as H _ _; cbn [cnt] in H; lia]. destruct m as [m|]; [|destruct x; injection H as H _ _; cbn [cnt] in H; lia]. destruct x as [x|]; [|injection H as H _ _; cbn [cnt] in H; lia].
    injection H as <- _. eexists. split; [reflexivity|]. exists y, m, x, r1, r2, r3. repeat split; assumption.
  Qed.
  Lemma date2_nonneg s n d r : date_v2 mkdate s = Ok (n, d, r) -> 0 <= n.
  Proof.
    unfold date_v2. destruct (scan_lim 4 _) as (y, r1), (scan_lim 2 _) as (m, r2), (scan_lim 2 _) as (x, r3). destruct r3 as [|dot r3]; [discriminate|]. destruct (scan_lim 2 r3) as (h, r4), (scan_lim 2 _) as (i, r5).
    intros H. destruct y, m, x, h, i; injection H as <- _ _; cbn [cnt]; lia.
  Qed.
  Lemma date2_zero s d r : date_v2 mkdate s = Ok (0, d, r) -> exists t, d = Some t /\ reads_date2 s t r.
  Proof.
    unfold date_v2, reads_date2. destruct (scan_lim 4 s) as (y, r1) eqn:E1. destruct (scan_lim 2 r1) as (m, r2) eqn:E2. destruct (scan_lim 2 r2) as (x, r3) eqn:E3. destruct r3 as [|dot r3]; [discriminate|].
    destruct (scan_lim 2 r3) as (h, r4) eqn:E4. destruct (scan_lim 2 r4) as (i, r5) eqn:E5. intros H.
    destruct y as [y|]; [|destruct m, x, h, i; injection H as H _ _; cbn [cnt] in H; lia]. destruct m as [m|]; [|destruct x, h, i; injection H as H _ _; cbn [cnt] in H; lia]. destruct x as [x|]; [|destruct h, i; injection H as H _ _; cbn [cnt] in H; lia].
    destruct h as [h|]; [|destruct i; injection H as H _ _; cbn [cnt] in H; lia]. destruct i as [i|]; [|injection H as H _ _; cbn [cnt] in H; lia].
    injection H as <- <-. eexists. split; [reflexivity|]. exists y, m, x, h, i, r1, r2, dot, r3, r4. repeat split; assumption.
  Qed.
  Lemma dates2_nonneg s n e n' e' p : 0 <= n -> dates_v2 mkdate s n e = Ok (n', e', p) -> n <= n'.
  Proof.
    intros Hn. unfold dates_v2. destruct (date_v2 mkdate s) as [[[n0 d0] p0]| | |] eqn:E; try discriminate. cbn [bind]. apply date2_nonneg in E. destruct (Z.eqb_spec (n + (if n0 =? 0 then 0 else 1)) 0) as [Z|Z].
    - destruct (date_v2 mkdate (skip_ws false p0)) as [[[n1 d1] p1]| | |] eqn:E1; try discriminate. cbn [bind]. apply date2_nonneg in E1. intros H. injection H as <- _ _. destruct (n0 =? 0); lia.
    - intros H. injection H as <- _ _. destruct (n0 =? 0); lia.
  Qed.
  Lemma dates2_zero s n e e' p : 0 <= n -> dates_v2 mkdate s n e = Ok (0, e', p) -> n = 0 /\ exists t0 t1 r0 r1, reads_date2 s t0 r0 /\ reads_date2 (skip_ws false r0) t1 r1 /\ p = Some r1 /\ e' = with_dates (Some t0) (Some t1) e.
  Proof.
    intros Hn H. assert (n = 0) as -> by (pose proof (dates2_nonneg _ _ _ _ _ _ Hn H); lia). split; [reflexivity|]. unfold dates_v2 in H. destruct (date_v2 mkdate s) as [[[n0 d0] p0]| | |] eqn:E; try discriminate. cbn [bind] in H. destruct (Z.eqb_spec n0 0) as [->|N0].
    - cbn [Z.add] in H. change (0 =? 0) with true in H. cbn match in H. destruct (date_v2 mkdate (skip_ws false p0)) as [[[n1 d1] p1]| | |] eqn:E1; try discriminate. cbn [bind] in H. injection H as H1 H2 H3. cbn in H1. subst n1. change (0 =? 0) with true in H3. cbn match in H3.
      apply date2_zero in E as (t0 & -> & R0). apply date2_zero in E1 as (t1 & -> & R1). exists t0, t1, p0, p1. repeat split; try assumption; [congruence|]. rewrite <- H2. reflexivity.
    - cbn in H. discriminate.
  Qed.

  (** what an accepted line of version 1 contains *)
  Definition contains1 (line : list Z) (er : errmodel) (e : entry) : Prop := exists k l m C S rest,
    reads true (skipn 4 (for2cpp line)) l m C S rest /\ holds e k l m C S /\
    match k with
    | gfc => prefix (chars "gfc ") line = true
    | gfct => prefix (chars "gfct") line = true /\ exists t, reads_date1 (skip_ws true (skip_cols true (sigma_columns er) rest)) t /\ et0 e = Some t
    | trnd => prefix (chars "trnd") line = true \/ prefix (chars "dot ") line = true
    | asin => prefix (chars "asin") line = true /\ exists p r, sdbl (skip_ws true (skip_cols true (sigma_columns er) rest)) = (Some p, r) /\ per e = Some p
    | acos => prefix (chars "acos") line = true /\ exists p r, sdbl (skip_ws true (skip_cols true (sigma_columns er) rest)) = (Some p, r) /\ per e = Some p
    end.
  Lemma sigma_err er : err_cols er = sigma_columns er. Proof. destruct er; reflexivity. Qed.
  Ltac split_four H := match type of H with context [four sdbl ?p ?s ?e] => let n := fresh "n" in let e1 := fresh "e1" in let r := fresh "r" in let E := fresh "E" in destruct (four sdbl p s e) as [[n e1] r] eqn:E; pose proof (four_nonneg _ _ _ _ _ _ E) end.
  Theorem accepted1 line er e e' : resolve_v1 sdbl mkdate line er e = Ok (0, e') -> contains1 line er e' /\ Z.of_nat (length line) <= 254.
  Proof.
    unfold resolve_v1. rewrite !sigma_err. destruct (Z.ltb_spec 254 (Z.of_nat (length line))) as [|L]; [discriminate|]. intros H. split; [|exact L]. cbv zeta in H. unfold contains1.
    destruct (prefix (chars "gfc ") line) eqn:K1.
    { split_four H. injection H as Hn <-. subst n. apply four_zero in E as (l & m & C & S & R & D1 & D2 & D3 & D4). exists gfc, l, m, C, S, r. repeat split; assumption. }
    destruct (prefix (chars "gfct") line) eqn:K2.
    { split_four H. destruct (date_v1 mkdate _) as [[n' d] r'] eqn:E'. injection H as Hn He. destruct (Z.eqb_spec n' 0) as [->|]; [|lia]. assert (n = 0) as -> by lia. apply four_zero in E as (l & m & C & S & R & D1 & D2 & D3 & D4).
      apply date1_zero in E' as (t & -> & RD). subst e'. exists gfct, l, m, C, S, r. split; [exact R|]. split; [repeat split; assumption|]. split; [reflexivity|]. exists t. split; [exact RD|reflexivity]. }
    destruct (prefix (chars "trnd") line || prefix (chars "dot ") line) eqn:K3.
    { split_four H. injection H as Hn <-. subst n. apply four_zero in E as (l & m & C & S & R & D1 & D2 & D3 & D4). exists trnd, l, m, C, S, r. apply orb_true_iff in K3. repeat split; assumption. }
    assert (P : forall k, (let '(n, e0, r) := four sdbl true (skipn 4 (for2cpp line)) e in let (p, _) := sdbl (skip_ws true (skip_cols true (sigma_columns er) r)) in Ok (n + cnt p, with_key k (with_per p e0))) = Ok (0, e') ->
      exists l m C S rest, reads true (skipn 4 (for2cpp line)) l m C S rest /\ holds e' k l m C S /\ exists p r, sdbl (skip_ws true (skip_cols true (sigma_columns er) rest)) = (Some p, r) /\ per e' = Some p).
    { intros k H'. split_four H'. destruct (sdbl (skip_ws true (skip_cols true (sigma_columns er) r))) as (p, r') eqn:E'. injection H' as Hn He. destruct p as [p|]; cbn [cnt] in Hn; [|lia]. assert (n = 0) as -> by lia.
      apply four_zero in E as (l & m & C & S & R & D1 & D2 & D3 & D4). subst e'. exists l, m, C, S, r. split; [exact R|]. split; [repeat split; assumption|]. exists p, r'. split; [exact E'|reflexivity]. }
    destruct (prefix (chars "asin") line) eqn:K4; [|destruct (prefix (chars "acos") line) eqn:K5; [|injection H as H _; discriminate]].
    - apply P in H as (l & m & C & S & rest & R & D & Q). exists asin, l, m, C, S, rest. repeat split; try assumption; apply D.
    - apply P in H as (l & m & C & S & rest & R & D & Q). exists acos, l, m, C, S, rest. repeat split; try assumption; apply D.
  Qed.
  (** version 2 *)
  Definition contains2 (line : list Z) (er : errmodel) (e : entry) : Prop := exists k l m C S rest,
    reads false (skipn 4 line) l m C S rest /\ holds e k l m C S /\
    let dated r1 := exists t0 t1 r0, reads_date2 (skip_ws false (skip_cols false (sigma_columns er) rest)) t0 r0 /\ reads_date2 (skip_ws false r0) t1 r1 /\ et0 e = Some t0 /\ et1 e = Some t1 in
    match k with
    | gfc => prefix (chars "gfc ") line = true /\ et0 e = Some MIN /\ et1 e = Some MAX
    | gfct => prefix (chars "gfct") line = true /\ exists r1, dated r1
    | trnd => prefix (chars "trnd") line = true /\ exists r1, dated r1
    | asin => prefix (chars "asin") line = true /\ exists r1 p r, dated r1 /\ sdbl (skip_ws false r1) = (Some p, r) /\ per e = Some p
    | acos => prefix (chars "acos") line = true /\ exists r1 p r, dated r1 /\ sdbl (skip_ws false r1) = (Some p, r) /\ per e = Some p
    end.
  Theorem accepted2 line er e e' : resolve_v2 sdbl mkdate MIN MAX line er e = Ok (0, e') -> contains2 line er e'.
  Proof.
    unfold resolve_v2. rewrite !sigma_err. intros H. cbv zeta in H. unfold contains2. cbv zeta.
    destruct (prefix (chars "gfc ") line) eqn:K1.
    { split_four H. injection H as Hn <-. subst n. apply four_zero in E as (l & m & C & S & R & D1 & D2 & D3 & D4). exists gfc, l, m, C, S, r. repeat split; assumption. }
    assert (T : forall k, (let '(n, e0, r) := four sdbl false (skipn 4 line) e in ' (n, e0, _) <- dates_v2 mkdate (skip_ws false (skip_cols false (sigma_columns er) r)) n e0 ;; Ok (n, with_key k e0)) = Ok (0, e') ->
      exists l m C S rest, reads false (skipn 4 line) l m C S rest /\ holds e' k l m C S /\ exists r1 t0 t1 r0, reads_date2 (skip_ws false (skip_cols false (sigma_columns er) rest)) t0 r0 /\ reads_date2 (skip_ws false r0) t1 r1 /\ et0 e' = Some t0 /\ et1 e' = Some t1).
    { intros k H'. split_four H'. destruct (dates_v2 mkdate _ n e1) as [[[n' e2] p]| | |] eqn:E'; try discriminate. cbn [bind] in H'. injection H' as -> He. apply dates2_zero in E' as (-> & t0 & t1 & r0 & r1 & R0 & R1 & _ & ->); [|assumption].
      apply four_zero in E as (l & m & C & S & R & D1 & D2 & D3 & D4). subst e'. exists l, m, C, S, r. split; [exact R|]. split; [repeat split; assumption|]. exists r1, t0, t1, r0. repeat split; assumption. }
    assert (P : forall k, (let '(n, e0, r) := four sdbl false (skipn 4 line) e in ' (n, e0, ptr) <- dates_v2 mkdate (skip_ws false (skip_cols false (sigma_columns er) r)) n e0 ;; p <- get ptr ;; let (v, _) := sdbl (skip_ws false p) in Ok (n + cnt v, with_key k (with_per v e0))) = Ok (0, e') ->
      exists l m C S rest, reads false (skipn 4 line) l m C S rest /\ holds e' k l m C S /\ exists r1 p r, (exists t0 t1 r0, reads_date2 (skip_ws false (skip_cols false (sigma_columns er) rest)) t0 r0 /\ reads_date2 (skip_ws false r0) t1 r1 /\ et0 e' = Some t0 /\ et1 e' = Some t1) /\
        sdbl (skip_ws false r1) = (Some p, r) /\ per e' = Some p).
    { intros k H'. split_four H'. destruct (dates_v2 mkdate _ n e1) as [[[n' e2] p]| | |] eqn:E'; try discriminate. cbn [bind] in H'. destruct p as [p|]; [|discriminate]. cbn [get bind] in H'. pose proof (dates2_nonneg _ _ _ _ _ _ (four_nonneg _ _ _ _ _ _ E) E') as N. destruct (sdbl (skip_ws false p)) as (v, r') eqn:E2. injection H' as Hn He.
      destruct v as [v|]; cbn [cnt] in Hn; [|lia]. assert (n' = 0) as -> by lia. apply dates2_zero in E' as (-> & t0 & t1 & r0 & r1 & R0 & R1 & Hp & ->); [|assumption]. injection Hp as ->.
      apply four_zero in E as (l & m & C & S & R & D1 & D2 & D3 & D4). subst e'. exists l, m, C, S, r. split; [exact R|]. split; [repeat split; assumption|]. exists r1, v, r'. split; [exists t0, t1, r0; repeat split; assumption|]. split; [exact E2|reflexivity]. }
    destruct (prefix (chars "gfct") line) eqn:K2.
    { apply T in H as (l & m & C & S & rest & R & D & Q). exists gfct, l, m, C, S, rest. repeat split; try assumption; apply D. }
    destruct (prefix (chars "trnd") line) eqn:K3.
    { apply T in H as (l & m & C & S & rest & R & D & Q). exists trnd, l, m, C, S, rest. repeat split; try assumption; apply D. }
    destruct (prefix (chars "asin") line) eqn:K4; [|destruct (prefix (chars "acos") line) eqn:K5; [|injection H as H _; discriminate]].
    - apply P in H as (l & m & C & S & rest & R & D & Q). exists asin, l, m, C, S, rest. repeat split; try assumption; apply D.
    - apply P in H as (l & m & C & S & rest & R & D & Q). exists acos, l, m, C, S, rest. repeat split; try assumption; apply D.
  Qed.
End Accept.
