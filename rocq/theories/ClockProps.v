(** Property theorems for C69: stop watch. *)
From Coq Require Import Reals ZArith List Bool String Lia Lra.
From Verif Require Import Base CString Aod1bModel ClockModel ClockSpec ClockProofs.
Import ListNotations.
Open Scope Z_scope.

(** a name of up to 23 characters is kept; the watch starts at zero *)
Theorem c69_name t rest : no_zero t -> (List.length t <= 23)%nat -> exists c, construct (t ++ 0 :: rest) = Ok c /\ named c t /\ total_duration c = 0 /\ msamples c = 0.
Proof.
  intros N L. unfold construct. rewrite strcpy_text by (try assumption; apply repeat_length). cbn [bind]. eexists. split; [reflexivity|]. unfold named. cbn [mname total_duration msamples].
  split; [|split; reflexivity]. split; [apply (strcpy_length _ t rest); [apply repeat_length|exact L]|eexists; reflexivity].
Qed.
(** a longer one overruns the member *)
Theorem c69_long_name_refuted t rest : no_zero t -> (24 <= List.length t)%nat -> construct (t ++ 0 :: rest) = UB.
Proof. intros N L. unfold construct. rewrite strcpy_long by (try assumption; apply repeat_length). reflexivity. Qed.
(** laps add up *)
Theorem c69_laps c l : total_duration c = 0 -> msamples c = 0 -> total_duration (measure c l) = elapsed l /\ msamples (measure c l) = Z.of_nat (List.length l) /\ mname (measure c l) = mname c.
Proof. intros T M. destruct (measure_fields c l) as (A & B & D). rewrite A, B, D, T, M. repeat split; lia. Qed.
(** the average is the mean without its decimals, for any unit *)
Theorem c69_average_partial unit c l : total_duration c = 0 -> msamples c = 0 -> 0 < unit -> l <> [] -> ordered l ->
  exists a, average_running_time unit (measure c l) = Ok a /\ (a <= mean unit l < a + 1)%R.
Proof. intros T M U N O. destruct (average_mean unit c l T M U N O) as (a & E & B & _). exists a. split; assumption. Qed.
Definition fresh : clock := mkClock 0 0 0 (repeat 0 24).
Theorem c69_average_refuted : exists l, ordered l /\ mean 1000 l = 1.5%R /\ average_running_time 1000 (measure fresh l) = Ok 1%R.
Proof.
  exists [(0, 1500)]. split; [repeat constructor; cbn; lia|]. split; [unfold mean, elapsed; cbn [fold_right fst snd List.length INR]; simpl Z.add; lra|reflexivity].
Qed.
(** and undefined before the first lap *)
Theorem c69_no_laps_refuted unit : average_running_time unit fresh = UB /\ is_faster fresh fresh = UB /\ compare fresh fresh = UB.
Proof. refine (conj eq_refl (conj eq_refl eq_refl)). Qed.
(** a watch said to be faster has the smaller mean *)
Theorem c69_faster a b la lb : total_duration a = 0 -> msamples a = 0 -> total_duration b = 0 -> msamples b = 0 -> la <> [] -> lb <> [] -> ordered la -> ordered lb ->
  exists r, is_faster (measure a la) (measure b lb) = Ok r /\ (r = true -> (mean 1000 la < mean 1000 lb)%R) /\ ((mean 1000 la + 1 <= mean 1000 lb)%R -> r = true).
Proof.
  intros Ta Ma Tb Mb Na Nb Oa Ob. destruct (average_mean 1000 a la) as (x & Ex & Bx & zx & ->); try assumption; [lia|]. destruct (average_mean 1000 b lb) as (y & Ey & By & zy & ->); try assumption; [lia|].
  unfold is_faster. rewrite Ex, Ey. cbn [bind]. eexists. split; [reflexivity|]. destruct (Rlt_dec (IZR zx) (IZR zy)) as [L|L].
  - split; [|reflexivity]. intros _. apply lt_IZR in L. assert (zx + 1 <= zy) as K by lia. apply IZR_le in K. rewrite plus_IZR in K. lra.
  - split; [discriminate|]. intros H. exfalso. lra.
Qed.
(** not the other way round: less than a microsecond goes unnoticed *)
Theorem c69_slower_refuted : exists la lb, ordered la /\ ordered lb /\ (mean 1000 la < mean 1000 lb)%R /\ is_faster (measure fresh la) (measure fresh lb) = Ok false /\ compare (measure fresh la) (measure fresh lb) = Ok None.
Proof.
  exists [(0, 100)], [(0, 900)]. split; [repeat constructor; cbn; lia|]. split; [repeat constructor; cbn; lia|]. split; [unfold mean, elapsed; cbn [fold_right fst snd List.length INR]; simpl Z.add; lra|].
  unfold is_faster, compare. cbn [measure fold_left fst snd]. unfold average_running_time, get_total_duration, stop, start, get_elapsed_time. cbn [msamples total_duration start_time fresh].
  change (0 + 1 =? 0) with false. cbn [bind]. change (Z.quot (Z.quot (0 + (100 - 0)) 1000) (0 + 1)) with 0. change (Z.quot (Z.quot (0 + (900 - 0)) 1000) (0 + 1)) with 0.
  split; [destruct (Rlt_dec 0 0); [lra|reflexivity]|destruct (Req_EM_T 0 0); [reflexivity|lra]].
Qed.
(** the comparison is the difference of the averages in percent *)
Theorem c69_compare a b la lb : total_duration a = 0 -> msamples a = 0 -> total_duration b = 0 -> msamples b = 0 -> la <> [] -> lb <> [] -> ordered la -> ordered lb ->
  exists x y, average_running_time 1000 (measure a la) = Ok x /\ average_running_time 1000 (measure b lb) = Ok y /\
    (y <> 0%R -> exists p, compare (measure a la) (measure b lb) = Ok (Some p) /\ x = (y * (1 + p / 100))%R) /\ (y = 0%R -> compare (measure a la) (measure b lb) = Ok None).
Proof.
  intros Ta Ma Tb Mb Na Nb Oa Ob. destruct (average_mean 1000 a la) as (x & Ex & _); try assumption; [lia|]. destruct (average_mean 1000 b lb) as (y & Ey & _); try assumption; [lia|].
  exists x, y. split; [exact Ex|]. split; [exact Ey|]. unfold compare. rewrite Ex, Ey. cbn [bind]. split; intros Y; (destruct (Req_EM_T y 0) as [Z|Z]; try contradiction).
  - eexists. split; [reflexivity|]. field. exact Z.
  - reflexivity.
Qed.
(** copies, moves (which copy) and assignment *)
Theorem c69_copy c t : named c t -> no_zero t -> exists d, copy c = Ok d /\ named d t /\ start_time d = start_time c /\ total_duration d = total_duration c /\ msamples d = msamples c.
Proof.
  intros NM N. pose proof (named_short c t NM) as L. destruct NM as (B & r & E). unfold copy. rewrite E, strcpy_text by (try assumption; apply repeat_length). cbn [bind]. eexists. split; [reflexivity|].
  unfold named. cbn [mname start_time total_duration msamples]. repeat split; [apply (strcpy_length _ t r); [apply repeat_length|exact L]|eexists; reflexivity].
Qed.
Theorem c69_assign a c t u : named a u -> named c t -> no_zero t -> exists d, assign false a c = Ok d /\ named d t /\ start_time d = start_time c /\ total_duration d = total_duration c /\ msamples d = msamples c.
Proof.
  intros [A _] NM N. pose proof (named_short c t NM) as L. destruct NM as (B & r & E). unfold assign. rewrite E, strcpy_text by assumption. cbn [bind]. eexists. split; [reflexivity|].
  unfold named. cbn [mname start_time total_duration msamples]. repeat split; [apply (strcpy_length _ t r); assumption|eexists; reflexivity].
Qed.
Example c69_nonvacuous : exists c l, construct (cstring "dense") = Ok c /\ named c (chars "dense") /\ no_zero (chars "dense") /\ ordered l /\ l <> [] /\ mean 1000 l = 2%R /\ average_running_time 1000 (measure c l) = Ok 2%R.
Proof.
  eexists. exists [(0, 1000); (5000, 8000)]. split; [reflexivity|]. split; [split; [reflexivity|exists (repeat 0 18); reflexivity]|]. split; [repeat constructor; discriminate|].
  split; [repeat constructor; cbn; lia|]. split; [discriminate|]. split; [unfold mean, elapsed; cbn [fold_right fst snd List.length INR]; simpl Z.add; lra|reflexivity].
Qed.
Print Assumptions c69_name.
Print Assumptions c69_long_name_refuted.
Print Assumptions c69_laps.
Print Assumptions c69_average_partial.
Print Assumptions c69_average_refuted.
Print Assumptions c69_no_laps_refuted.
Print Assumptions c69_faster.
Print Assumptions c69_slower_refuted.
Print Assumptions c69_copy.
Print Assumptions c69_assign.
Print Assumptions c69_compare.
