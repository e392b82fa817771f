(** Properties C19-C21 and C57 (AOD1B products). *)
From Coq Require Import Ascii String Reals ZArith List Bool Lia Lra.
From Verif Require Import Base CString FromChars Aod1bModel Aod1bSpec Aod1bProofs.
Import ListNotations.
Open Scope Z_scope.

(** ** C19 names *)
(** what the uncompressed name should be *)
Definition product_name (date : list Z) (satid rl : Z) : list Z :=
  chars "AOD1B_" ++ date ++ chars "_" ++ [satid] ++ chars "_" ++ two_digits rl ++ chars ".asc".
Theorem c19_name_partial : forall date rl buf satid, length date = 10%nat -> Forall (fun c => c <> 0) date -> satid <> 0 -> 0 <= rl <= 99 -> (26 <= length buf)%nat ->
  exists b, filename date rl buf satid false = Ok b /\ upto0 b = product_name date satid rl /\ length b = length buf.
Proof.
  intros date rl buf satid LD F S R LB. eexists. split; [apply filename_ok; assumption|]. split.
  - apply upto0_app. apply name_nonzero; assumption.
  - rewrite !app_length, skipn_length. unfold name_bytes. rewrite !app_length, LD. cbn. lia.
Qed.
Print Assumptions c19_name_partial.
(** the compressed variant is the uncompressed name, whatever the date, satellite and release *)
Theorem c19_compressed_refuted : forall date rl buf satid, length date = 10%nat -> Forall (fun c => c <> 0) date -> satid <> 0 -> 0 <= rl <= 99 -> (31 <= length buf)%nat ->
  exists b, filename date rl buf satid true = Ok b /\ upto0 b = product_name date satid rl.
Proof.
  intros date rl buf satid LD F S R LB. destruct (filename_gz_ok date rl buf satid LD R LB) as (x & E). eexists. split; [exact E|].
  cbn [app]. apply upto0_app. apply name_nonzero; assumption.
Qed.
Print Assumptions c19_compressed_refuted.
(** buffers: 26 bytes, 31 with compression (the 29 of the name proper do not do) *)
Theorem c19_buffer : forall date rl buf satid z, length date = 10%nat -> 0 <= rl <= 99 -> (length buf < 26)%nat -> filename date rl buf satid z = UB.
Proof. exact filename_short. Qed.
Print Assumptions c19_buffer.
Theorem c19_compressed_buffer_refuted : forall date rl buf satid, length date = 10%nat -> 0 <= rl <= 99 -> (length buf < 31)%nat -> filename date rl buf satid true = UB.
Proof. exact filename_gz_short. Qed.
Print Assumptions c19_compressed_buffer_refuted.
(** the release is found again in a path that ends in the name *)
Theorem c19_release : forall path date satid rl, length date = 10%nat -> Forall (fun c => c <> 47) date -> satid <> 47 -> 0 <= rl <= 99 ->
  resolve_rl (path ++ chars "/" ++ product_name date satid rl) = Ok rl.
Proof. exact resolve_ok. Qed.
Print Assumptions c19_release.
(** ... but not in the bare name *)
Theorem c19_bare_name_refuted : forall fn, Forall (fun c => c <> 47) fn -> resolve_rl fn = UB.
Proof. exact resolve_noslash. Qed.
Print Assumptions c19_bare_name_refuted.
Example c19_nonvacuous : let date := chars "2008-07-03" in
  filename date 6 (repeat 1 40) 88 false = Ok (chars "AOD1B_2008-07-03_X_06.asc" ++ 0 :: repeat 1 14) /\
  filename date 6 (repeat 1 40) 88 true = Ok (chars "AOD1B_2008-07-03_X_06.asc" ++ [0; 1] ++ chars ".gz" ++ 0 :: repeat 1 9) /\
  resolve_rl (chars "data/AOD1B_2008-07-03_X_06.asc") = Ok 6.
Proof. vm_compute. auto. Qed.

(** ** C20 the interpolating stream *)
Theorem c20_sequence_partial : forall C EOF d (s : st C) b0 b1 b2 b3 fr more t ts,
  files C s = (b0 :: b1 :: b2 :: b3 :: fr) :: more -> increasing (concat (files C s)) -> spaced d (concat (files C s)) ->
  Forall (fun g => (2 <= length g)%nat) more -> (dir C s = true \/ more = []) ->
  ep C b0 <= t < ep C b3 -> stepping d t ts -> Forall (fun u => exists b, In b (concat (files C s)) /\ u < ep C b) ts ->
  exists s' ps, initialize C EOF s = Ok (0, s') /\ answers EOF (t :: ts) s' = Ok (map Some ps) /\ Forall2 (bracket (concat (files C s))) (t :: ts) ps.
Proof. exact @sequence_ok. Qed.
Print Assumptions c20_sequence_partial.
(** the answer is determined by the blocks and the epoch alone *)
Theorem c20_unique : forall C (l : list (block C)) t p q, increasing l -> bracket l t p -> bracket l t q -> p = q.
Proof. exact @bracket_unique. Qed.
Print Assumptions c20_unique.
(** single queries from any position *)
Theorem c20_near : forall C EOF (s : st C) x0 x1 x2 rest t, buffered s x0 x1 x2 rest -> increasing (x0 :: x1 :: x2 :: rest) ->
  ep C x0 <= t -> match rest with b :: _ => t < ep C b | [] => t < ep C x2 end ->
  exists p s', coefficients_at C EOF t s = Ok (Some p, s') /\ bracket (x0 :: x1 :: x2 :: rest) t p /\ files C s' = files C s /\ dir C s' = dir C s /\
    (s' = s /\ t < ep C x2 \/ exists b r, rest = b :: r /\ ep C x2 <= t /\ buffered s' x1 x2 b r).
Proof. exact @query_near. Qed.
Print Assumptions c20_near.
Theorem c20_back : forall C EOF (s : st C) x0 x1 x2 rest b0 b1 b2 b3 frest more t, buffered s x0 x1 x2 rest -> increasing (x0 :: x1 :: x2 :: rest) ->
  files C s = (b0 :: b1 :: b2 :: b3 :: frest) :: more -> increasing (b0 :: b1 :: b2 :: b3 :: frest) -> t < ep C x0 -> ep C b0 <= t < ep C b3 ->
  exists p s', coefficients_at C EOF t s = Ok (Some p, s') /\ bracket (b0 :: b1 :: b2 :: b3 :: frest) t p /\ files C s' = files C s /\ dir C s' = dir C s /\
    (t < ep C b2 /\ buffered s' b0 b1 b2 (b3 :: frest) \/ ep C b2 <= t /\ buffered s' b1 b2 b3 frest).
Proof. exact @query_back. Qed.
Print Assumptions c20_back.
Theorem c20_before : forall C EOF (s : st C) x0 x1 x2 rest f fs more t, buffered s x0 x1 x2 rest -> increasing (x0 :: x1 :: x2 :: rest) ->
  files C s = (f :: fs) :: more -> t < ep C x0 -> t < ep C f -> coefficients_at C EOF t s = Ok (None, s).
Proof. exact @query_before. Qed.
Print Assumptions c20_before.
Theorem c20_after : forall C EOF (s : st C) x0 x1 x2 t, buffered s x0 x1 x2 [] -> increasing [x0; x1; x2] -> dir C s = false -> ep C x2 <= t ->
  coefficients_at C EOF t s = Ok (None, s).
Proof. exact @query_after. Qed.
Print Assumptions c20_after.
Theorem c20_next_file : forall C EOF (s : st C) x0 x1 x2 f n0 n1 nrest more t, buffered s x0 x1 x2 [] -> increasing (x0 :: x1 :: x2 :: n0 :: n1 :: nrest) -> dir C s = true ->
  files C s = f :: (n0 :: n1 :: nrest) :: more -> ep C x2 <= t < ep C n1 ->
  exists p s', coefficients_at C EOF t s = Ok (Some p, s') /\ bracket (x2 :: n0 :: n1 :: nrest) t p /\ files C s' = (n0 :: n1 :: nrest) :: more /\ dir C s' = true /\
    (t < ep C n0 /\ buffered s' x1 x2 n0 (n1 :: nrest) \/ ep C n0 <= t /\ buffered s' x2 n0 n1 nrest).
Proof. exact @query_feed. Qed.
Print Assumptions c20_next_file.
Theorem c20_initialize : forall C EOF (s : st C) b0 b1 b2 b3 rest more, files C s = (b0 :: b1 :: b2 :: b3 :: rest) :: more ->
  exists s', initialize C EOF s = Ok (0, s') /\ buffered s' b0 b1 b2 (b3 :: rest) /\ files C s' = files C s /\ dir C s' = dir C s.
Proof. exact @initialize_ok. Qed.
Print Assumptions c20_initialize.
(** a file of three blocks is complete but refused *)
Theorem c20_short_file_refuted : forall C EOF (s : st C) f more, files C s = f :: more -> f <> [] -> (length f < 4)%nat -> exists s', initialize C EOF s = Ok (1, s').
Proof. exact @initialize_short. Qed.
Print Assumptions c20_short_file_refuted.

(** linear interpolation: exact at both ends, affine in between *)
Theorem c20_lerp : forall t t1 t2 c1 c2 : R, (t1 < t2)%R ->
  lerp t1 t1 t2 c1 c2 = c1 /\ lerp t2 t1 t2 c1 c2 = c2 /\ lerp t t1 t2 c1 c2 = (c1 + (t - t1) * ((c2 - c1) / (t2 - t1)))%R /\
  forall a b, (c1 = a + b * t1 -> c2 = a + b * t2 -> lerp t t1 t2 c1 c2 = a + b * t)%R.
Proof.
  intros t t1 t2 c1 c2 L. unfold lerp. repeat split; intros; subst; field; lra.
Qed.
Print Assumptions c20_lerp.

(** a day of six blocks; the coefficients are the epochs *)
Definition ex_file : list (block Z) := map (fun e => mkB Z e e) [0; 10; 20; 30; 40; 50].
Definition ex_stream : st Z := mkSt Z [ex_file] false None [] (0, 0, 0) (0, 0, 0).
Definition ask (ts : list Z) : res (list (option ((Z * Z) * (Z * Z)))) := ' (_, s) <- initialize Z (-1) ex_stream ;; answers (-1) ts s.
Example c20_nonvacuous : increasing ex_file /\ spaced 10 ex_file /\ stepping 10 5 [15; 25; 33; 43; 49] /\
  ask [5; 15; 25; 33; 43; 49] = Ok [Some ((0, 0), (10, 10)); Some ((10, 10), (20, 20)); Some ((20, 20), (30, 30)); Some ((30, 30), (40, 40)); Some ((40, 40), (50, 50)); Some ((40, 40), (50, 50))].
Proof. repeat split; try lia; repeat constructor; cbn; lia. Qed.
(** a query more than one block ahead succeeds with blocks that do not bracket it *)
Theorem c20_bracket_refuted : exists t p, ask [t] = Ok [Some p] /\ (exists q, bracket ex_file t q) /\ ~ bracket ex_file t p.
Proof.
  exists 45, ((0, 0), (30, 30)). split; [reflexivity|]. split.
  - exists ((40, 40), (50, 50)). exists (map (fun e => mkB Z e e) [0; 10; 20; 30]), (mkB Z 40 40), (mkB Z 50 50), []. repeat split; cbn; lia.
  - intros (l1 & b1 & b2 & l2 & _ & T & E). injection E as E1 E2 E3 E4. rewrite <- E3 in T. lia.
Qed.
Print Assumptions c20_bracket_refuted.
(** the same epoch is answered differently after other queries *)
Theorem c20_history_refuted : exists t before p q r, ask [t] = Ok [Some p] /\ ask (before ++ [t]) = Ok (r ++ [Some q]) /\ p <> q.
Proof.
  exists 45, [25; 35], ((0, 0), (30, 30)), ((40, 40), (50, 50)), [Some ((20, 20), (30, 30)); Some ((30, 30), (40, 40))]. repeat split; discriminate.
Qed.
Print Assumptions c20_history_refuted.
(** in general: a query past the next block is answered between the oldest block and the next one, both before the epoch *)
Theorem c20_ahead_refuted : forall C EOF (s : st C) x0 x1 x2 b q rest t, buffered s x0 x1 x2 (b :: q :: rest) -> increasing (x0 :: x1 :: x2 :: b :: q :: rest) -> ep C b < t ->
  exists s', coefficients_at C EOF t s = Ok (Some ((ep C x0, co C x0), (ep C b, co C b)), s').
Proof.
  intros C EOF s x0 x1 x2 b q rest t (Hh & Hc & Hm & Hu) I T. cbn [increasing] in I. destruct I as (I0 & I1 & I2 & _). apply Forall_cons_iff in I1 as (A1 & _). apply Forall_cons_iff in I2 as (A2 & _). apply Forall_cons_iff in I0 as (A0 & _).
  destruct s as [fs d m u hh cc]. cbn [h c mit unread] in *. subst. unfold coefficients_at. cbn [h]. assert (B1 : t <? ep C x1 = false) by lia. assert (B2 : t <? ep C x2 = false) by lia. assert (B3 : ep C x2 <=? t = true) by lia. assert (B4 : t <? ep C b = false) by lia. assert (B5 : t <=? ep C b = false) by lia.
  rewrite B1, B2, !andb_false_r. cbn [hunt_range h mit]. rewrite B1, B2, B3, !andb_false_r. cbn [andb]. unfold mepoch at 1. cbn [mit]. rewrite B4. cbn [hunt_loop]. unfold mepoch at 1. cbn [mit unread]. rewrite B5. cbn [andb]. destruct rest; eexists; reflexivity.
Qed.
Print Assumptions c20_ahead_refuted.
(** and a query at the epoch of the next block reads the rest of the file and fails *)
Lemma hunt_to_end C EOF t : EOF < t -> forall u n (s : st C) b, mit C s = Some b -> unread C s = u -> t <= ep C b -> Forall (fun q => t <= ep C q) u -> (length u < n)%nat -> exists s', hunt_loop C EOF t 0 n s = (-1, s') /\ files C s' = files C s /\ dir C s' = dir C s.
Proof.
  intros E. induction u as [|q u IH]; intros n [fs d m un hh cc] b Hm Hu Hb Hq Hn; cbn [mit unread files dir] in *; subst; (destruct n as [|n]; [cbn in Hn; lia|]); cbn [hunt_loop]; unfold mepoch at 1; cbn [mit]; rewrite (proj2 (Z.leb_le _ _) Hb); cbn [andb Z.eqb collect mit take_header advance unread files dir h c].
  - cbn [Z.add]. destruct n as [|n]; cbn [hunt_loop]; [eexists; repeat split|]. rewrite andb_false_r. eexists. repeat split.
  - apply Forall_cons_iff in Hq as (Q & Hq). cbn [Z.add]. edestruct (IH n) as (s' & A & B & D); [| | | | |exists s'; split; [exact A|split; [exact B|exact D]]]; cbn [mit unread]; try reflexivity; try assumption. cbn in Hn. lia.
Qed.
Theorem c20_next_epoch_refuted : forall C EOF (s : st C) x0 x1 x2 b rest, buffered s x0 x1 x2 (b :: rest) -> increasing (x0 :: x1 :: x2 :: b :: rest) -> EOF < ep C b ->
  exists s', coefficients_at C EOF (ep C b) s = Ok (None, s').
Proof.
  intros C EOF s x0 x1 x2 b rest (Hh & Hc & Hm & Hu) I E. cbn [increasing] in I. destruct I as (I0 & I1 & I2 & I3 & _). apply Forall_cons_iff in I2 as (A2 & _). apply Forall_cons_iff in I1 as (A1 & I1).
  assert (Hq : Forall (fun q => ep C b <= ep C q) rest) by (eapply Forall_impl; [|exact I3]; cbv beta; intros; lia).
  destruct (hunt_to_end C EOF (ep C b) E rest (S (S (length rest))) s b Hm Hu ltac:(lia) Hq ltac:(lia)) as (s' & L & _). unfold coefficients_at. rewrite Hh. assert (B1 : ep C b <? ep C x1 = false) by lia. assert (B2 : ep C b <? ep C x2 = false) by lia. assert (B3 : ep C x2 <=? ep C b = true) by lia.
  rewrite B1, B2, !andb_false_r. cbn [hunt_range]. rewrite Hh, B1, B2, B3, Hm, !andb_false_r. cbn [andb]. unfold mepoch at 1. rewrite Hm, Z.ltb_irrefl, Hu, L. cbn. eexists. reflexivity.
Qed.
Print Assumptions c20_next_epoch_refuted.
(** an epoch of the file that is the next to be read is not found *)
Theorem c20_equal_epoch_refuted : ask [30] = Ok [None] /\ bracket ex_file 30 ((30, 30), (40, 40)).
Proof.
  split; [reflexivity|]. exists (map (fun e => mkB Z e e) [0; 10; 20]), (mkB Z 30 30), (mkB Z 40 40), [mkB Z 50 50]. repeat split; cbn; lia.
Qed.
Print Assumptions c20_equal_epoch_refuted.

(** ** C21 blocks *)
Theorem c21_block_partial : forall sdbl, word_scanner sdbl -> forall fd cd co N M n lines tail term es cs,
  lines_say sdbl lines es -> Forall valid_entry es -> more_lines tail term = true ->
  n = Z.of_nat (length lines) -> M <= N <= fd -> N <= cd -> M <= co ->
  let inside := filter (within_limits N M) es in
  exists cs', collect_coeffs sdbl fd cd co N M n (mkS (lines ++ tail) term true) cs =
    Ok ((if (top_degree inside =? N) && (top_order inside =? M) then 0 else -1), cs', mkS tail term true) /\
    forall l m, cs' l m = match value_of inside l m with Some v => v | None => (0%R, 0%R) end.
Proof. exact collect_ok. Qed.
Print Assumptions c21_block_partial.
Theorem c21_truncated : forall sdbl, word_scanner sdbl -> forall fd cd co N M n lines term es cs, lines_say sdbl lines es -> Forall valid_entry es -> term = true ->
  Z.of_nat (length lines) < n -> exists cs' s', collect_coeffs sdbl fd cd co N M n (mkS lines term true) cs = Ok (1, cs', s').
Proof. exact collect_truncated. Qed.
Print Assumptions c21_truncated.
Theorem c21_unreadable : forall sdbl, word_scanner sdbl -> forall fd cd co N M n lines bad tail term es cs, lines_say sdbl lines es -> Forall valid_entry es -> unreadable bad ->
  Z.of_nat (length lines) < n -> exists cs' s', collect_coeffs sdbl fd cd co N M n (mkS (lines ++ bad :: tail) term true) cs = Ok (1, cs', s').
Proof. exact collect_unreadable. Qed.
Print Assumptions c21_unreadable.
Theorem c21_scanner : word_scanner scan_dbl.
Proof. exact scan_dbl_word. Qed.
Print Assumptions c21_scanner.
(** a line with order above degree, or a negative order, is undefined behaviour rather than an error *)
Theorem c21_order_refuted : forall sdbl, word_scanner sdbl -> forall fd cd co N M n line tail term l m c s cs, coef_line sdbl line l m c s -> ~ 0 <= m <= l ->
  l <= N -> m <= M -> M <= N <= fd -> N <= cd -> M <= co -> 0 < n ->
  collect_coeffs sdbl fd cd co N M n (mkS (line :: tail) term true) cs = UB.
Proof.
  intros sdbl SD fd cd co N M n line tail term l m c s cs L V L1 L2 L3 L4 L5 P. unfold collect_coeffs.
  destruct (Z.ltb_spec N M); [lia|]. destruct (Z.ltb_spec fd N); [lia|]. destruct (Z.ltb_spec cd N); [lia|]. destruct (Z.ltb_spec co M); [lia|]. cbn [orb].
  assert (exists k, Z.to_nat n = S k) as (k & ->) by (exists (Z.to_nat (n - 1)); lia). cbn [read_lines].
  rewrite (getline_ok _ _ _ (coef_line_short _ _ _ _ _ _ L)), (one_line_bad sdbl N M line l m c s zero 0 0 L L1 L2 V). reflexivity.
Qed.
Print Assumptions c21_order_refuted.
Definition ex_lines : list (list Z) := map chars ["  0    0  1.5e-10  0"; "  1    0 -2.5  +3"; "  1    1 7 8"]%string.
(** unreadable coefficients beyond the limits go unnoticed; a complete last line without newline is refused *)
Theorem c21_malformed_refuted : (exists line, line = chars "  2    0  abc def" /\ exists cs, collect_coeffs scan_dbl 2 1 1 1 1 4 (mkS (ex_lines ++ [line]) true true) zero = Ok (0, cs, mkS [] true true)) /\
  (exists cs s, collect_coeffs scan_dbl 1 1 1 1 1 3 (mkS ex_lines false true) zero = Ok (1, cs, s)).
Proof. split; [eexists; split; [reflexivity|]|]; repeat eexists. Qed.
Print Assumptions c21_malformed_refuted.
Example c21_nonvacuous : exists es, lines_say scan_dbl ex_lines es /\ Forall valid_entry es /\ top_degree (filter (within_limits 1 1) es) = 1 /\ top_order (filter (within_limits 1 1) es) = 1 /\ length es = 3%nat.
Proof.
  assert (X : forall line l m c s s1 w1 s2 w2 s3 w3 s4 w4 rest, line = s1 ++ w1 ++ 32 :: s2 ++ w2 ++ 32 :: s3 ++ w3 ++ 32 :: s4 ++ w4 ++ rest ->
    sep s1 -> sep s2 -> sep s3 -> sep s4 -> wordp w1 -> wordp w2 -> wordp w3 -> wordp w4 -> at_blank rest -> scan_i32 w1 = (Some l, []) -> scan_i32 w2 = (Some m, []) ->
    scan_dbl w3 = (Some c, []) -> scan_dbl w4 = (Some s, []) -> (length line < 124)%nat -> coef_line scan_dbl line l m c s).
  { intros. exists s1, w1, s2, w2, s3, w3, s4, w4, rest. repeat (split; [assumption|]). assumption. }
  assert (SP : forall n, sep (repeat 32 n)) by (intros n; induction n; constructor; auto).
  eexists [(0, 0, _, _); (1, 0, _, _); (1, 1, _, _)]. split; [|repeat split; repeat constructor; cbn; lia].
  repeat constructor.
  - eapply (X _ 0 0 _ _ (repeat 32 2) [48] (repeat 32 3) [48] (repeat 32 1) (chars "1.5e-10") (repeat 32 1) [48] []); try apply SP; try reflexivity; try (split; [discriminate|repeat constructor; discriminate]); try (cbn; lia); repeat constructor; auto.
  - eapply (X _ 1 0 _ _ (repeat 32 2) [49] (repeat 32 3) [48] [] (chars "-2.5") (repeat 32 1 ++ [43]) [51] []); try apply SP; try (apply Forall_app; split; [apply SP|constructor; [right; reflexivity|constructor]]); try reflexivity; try (split; [discriminate|repeat constructor; discriminate]); try (cbn; lia); repeat constructor; auto.
  - eapply (X _ 1 1 _ _ (repeat 32 2) [49] (repeat 32 3) [49] [] [55] [] [56] []); try apply SP; try reflexivity; try (split; [discriminate|repeat constructor; discriminate]); try (cbn; lia); repeat constructor; auto.
Qed.

(** ** C57 ownership of the stream *)
(** without moves no program goes wrong and nothing is left when all objects are gone *)
Theorem c57_unmoved_partial : forall l, Forall unmoved l -> srun (mkW [] [] 0) l = Illegal \/
  exists w, srun (mkW [] [] 0) l = Ok w /\ (objs w = [] -> owned w = []).
Proof. exact unmoved_safe. Qed.
Print Assumptions c57_unmoved_partial.
(** destroying an object that was moved from *)
Theorem c57_moved_from_refuted : srun (mkW [] [] 0) [New 0; MoveNew 1 0; Drop 0] = UB.
Proof. reflexivity. Qed.
Print Assumptions c57_moved_from_refuted.
(** assignment by move loses the array of the target; its source can not be destroyed either *)
Theorem c57_move_assign_refuted : (exists w a, srun (mkW [] [] 0) [New 0; New 1; MoveAssign 0 1] = Ok w /\ In a (owned w) /\ forall i o, ofind (objs w) i = Some o -> arr o <> Some a) /\
  srun (mkW [] [] 0) [New 0; New 1; MoveAssign 0 1; Drop 1] = UB.
Proof.
  split; [|reflexivity]. eexists _, 0%nat. split; [reflexivity|]. split; [cbn; auto|]. intros i o. cbn. destruct (Nat.eqb i 0); [intros [= <-]; discriminate|]. destruct (Nat.eqb i 1); [intros [= <-]; discriminate|]. discriminate.
Qed.
Print Assumptions c57_move_assign_refuted.
Example c57_nonvacuous : exists w, srun (mkW [] [] 0) [New 0; New 1; Query 0; Drop 0; Query 1; Drop 1] = Ok w /\ objs w = [].
Proof. eexists. split; reflexivity. Qed.
