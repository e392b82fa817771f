(** Claim C86: the program that downloads AOD1B files (bin/getAod1b.py) fetches the non-tidal product of every day from the first date
    up to, but without, the last one, unless a file of that day is there, and decompresses it when asked to; no other file changes. What is
    false: the tidal products, and files left behind by a transfer that failed. *)
From Coq Require Import Ascii String ZArith List Bool Lia.
From Verif Require Import Base CString PyModel AodMergeSpec PyProofs AodGetModel AodGetSpec AodGetProofs.
Import ListNotations.
Open Scope Z_scope.

(** ** names *)
Theorem c86_name : forall day_text year_text rl t, (forall t, numeric (day_text t)) -> (forall t, numeric (year_text t)) ->
  product_name day_text year_text false rl t = Val (compressed (day_text t) (two rl), directory (year_text t) (two rl), chars "isdcftp.gfz-potsdam.de") /\
  nogz (compressed (day_text t) (two rl)) = product (day_text t) (two rl).
Proof. intros dt yt rl t D Y. split; [apply (name_is dt yt (fun _ _ => None) (fun _ _ => true) (fun _ => None) [] rl D Y)|apply (nogz_is dt (fun _ _ => None) (fun _ _ => true) (fun _ => None) [] rl D)]. Qed.
Theorem c86_release : forall rl, 0 <= rl < 100 -> exists a b, two rl = [a; b] /\ digit a /\ digit b /\ rl = 10 * (a - 48) + (b - 48).
Proof. exact two_value. Qed.

(** ** a run that ends without an exception *)
Theorem c86_run : forall day_text year_text retr connect gunzip out rl dcmp tfrom tend d d',
  (forall t, numeric (day_text t)) -> (forall t, numeric (year_text t)) -> out <> [] -> (forall r, out <> r ++ [47]) ->
  main day_text year_text retr connect gunzip false dcmp rl out tfrom (Some tend) d = (d', Val tt) ->
  (forall u, tfrom <= u < tend -> (d' (in_dir out (compressed (day_text u) (two rl))) <> None \/ d' (in_dir out (product (day_text u) (two rl))) <> None) /\
     (dcmp = true -> d' (in_dir out (product (day_text u) (two rl))) <> None)) /\
  (forall f, (forall u, tfrom <= u < tend -> f <> in_dir out (compressed (day_text u) (two rl)) /\ f <> in_dir out (product (day_text u) (two rl))) -> d' f = d f) /\
  (forall f, d f <> None -> d' f <> None).
Proof.
  intros dt yt retr connect gunzip out rl dcmp a b d d' DT YT NE NS H. unfold main in H. apply (days_ok dt yt retr connect gunzip out rl DT YT NE NS) in H as (A & C & K). split; [|split; [|exact K]].
  - intros u U. apply A. lia.
  - intros f F. apply C. intros u U. apply F. lia.
Qed.
(** what the server gave, and that decompressed *)
Theorem c86_content : forall day_text year_text retr connect gunzip out rl dcmp tfrom tend d d' u,
  (forall t, numeric (day_text t)) -> (forall t, numeric (year_text t)) -> out <> [] -> (forall r, out <> r ++ [47]) ->
  (forall a b, tfrom <= a < tend -> tfrom <= b < tend -> day_text a = day_text b -> a = b) ->
  main day_text year_text retr connect gunzip false dcmp rl out tfrom (Some tend) d = (d', Val tt) -> tfrom <= u < tend ->
  d (in_dir out (compressed (day_text u) (two rl))) = None -> d (in_dir out (product (day_text u) (two rl))) = None ->
  exists z, retr (directory (year_text u) (two rl)) (compressed (day_text u) (two rl)) = Some z /\ d' (in_dir out (compressed (day_text u) (two rl))) = Some z /\
    (dcmp = true -> exists s, gunzip z = Some s /\ d' (in_dir out (product (day_text u) (two rl))) = Some s).
Proof.
  intros dt yt retr connect gunzip out rl dcmp a b d d' u DT YT NE NS INJ H U NF NP. unfold main in H. refine (days_content dt yt retr connect gunzip out rl DT YT NE NS _ dcmp a d d' u _ H _ NF NP); [|lia]. intros x y X Y. apply INJ; lia.
Qed.
Theorem c86_complete : forall day_text year_text retr connect gunzip out rl dcmp tfrom tend d,
  (forall t, numeric (day_text t)) -> (forall t, numeric (year_text t)) -> out <> [] -> (forall r, out <> r ++ [47]) ->
  (forall u, tfrom <= u < tend -> connect server (directory (year_text u) (two rl)) = true /\ retr (directory (year_text u) (two rl)) (compressed (day_text u) (two rl)) <> None) ->
  (forall z, dcmp = true -> gunzip z <> None) ->
  exists d', main day_text year_text retr connect gunzip false dcmp rl out tfrom (Some tend) d = (d', Val tt).
Proof.
  intros dt yt retr connect gunzip out rl dcmp a b d DT YT NE NS R G. unfold main. apply (days_complete dt yt retr connect gunzip out rl DT YT NE NS); [|exact G]. intros u U. apply R. lia.
Qed.
(** files that are there: nothing is asked of the server, nothing changes *)
Theorem c86_skip : forall day_text year_text retr connect gunzip out rl tfrom tend d,
  (forall t, numeric (day_text t)) -> (forall t, numeric (year_text t)) -> out <> [] -> (forall r, out <> r ++ [47]) ->
  (forall u, tfrom <= u < tend -> d (in_dir out (compressed (day_text u) (two rl))) <> None \/ d (in_dir out (product (day_text u) (two rl))) <> None) ->
  main day_text year_text retr connect gunzip false false rl out tfrom (Some tend) d = (d, Val tt).
Proof.
  intros dt yt retr connect gunzip out rl a b d DT YT NE NS H. unfold main. apply (days_skip dt yt retr connect gunzip out rl DT YT NE NS). intros u U. apply H. lia.
Qed.
(** no last date: one day; a last date that is not later: nothing *)
Theorem c86_default : forall day_text year_text retr connect gunzip tidal dcmp rl out tfrom d,
  main day_text year_text retr connect gunzip tidal dcmp rl out tfrom None d = main day_text year_text retr connect gunzip tidal dcmp rl out tfrom (Some (tfrom + 1)) d /\
  (forall tend, tend <= tfrom -> main day_text year_text retr connect gunzip tidal dcmp rl out tfrom (Some tend) d = (d, Val tt)).
Proof. intros. split; [reflexivity|]. intros tend T. unfold main. replace (Z.to_nat (tend - tfrom)) with O by lia. reflexivity. Qed.

(** ** refuted *)
(** --tidal: always an exception *)
Theorem c86_tidal_refuted : forall day_text year_text retr connect gunzip dcmp rl out tfrom tend d, tfrom < tend ->
  main day_text year_text retr connect gunzip true dcmp rl out tfrom (Some tend) d = (d, Raise NameError).
Proof. intros. unfold main. apply days_tidal. lia. Qed.
(** a transfer that fails leaves an empty file, that later runs take for the product, whatever the server has then *)
Theorem c86_failed_refuted : forall day_text year_text retr connect gunzip out rl t d,
  (forall t, numeric (day_text t)) -> (forall t, numeric (year_text t)) -> out <> [] -> (forall r, out <> r ++ [47]) ->
  d (in_dir out (compressed (day_text t) (two rl))) = None -> d (in_dir out (product (day_text t) (two rl))) = None ->
  connect server (directory (year_text t) (two rl)) = true -> retr (directory (year_text t) (two rl)) (compressed (day_text t) (two rl)) = None ->
  let d' := put d (in_dir out (compressed (day_text t) (two rl))) [] in
  main day_text year_text retr connect gunzip false false rl out t None d = (d', Raise OSError) /\
  d' (in_dir out (compressed (day_text t) (two rl))) = Some [] /\
  forall retr' connect' gunzip', main day_text year_text retr' connect' gunzip' false false rl out t None d' = (d', Val tt).
Proof.
  intros dt yt retr connect gunzip out rl t d DT YT NE NS NF NP C R. cbn zeta. split; [|split; [apply put_here|]].
  - unfold main. replace (Z.to_nat (t + 1 - t)) with 1%nat by lia. cbn [days]. rewrite (one_day_is dt yt retr connect gunzip out rl DT YT NE NS). rewrite (proj2 (present_none d _) NF), (proj2 (present_none d _) NP), C. cbn [negb]. rewrite R. reflexivity.
  - intros retr' connect' gunzip'. unfold main. apply (days_skip dt yt retr' connect' gunzip' out rl DT YT NE NS). intros u U. replace u with t by lia. left. rewrite put_here. discriminate.
Qed.
(** the same for a decompression that fails, where the day had no decompressed file: with the compressed file gone, later runs take the empty one *)
Theorem c86_gunzip_refuted : forall day_text year_text retr connect gunzip out rl t d z,
  (forall t, numeric (day_text t)) -> (forall t, numeric (year_text t)) -> out <> [] -> (forall r, out <> r ++ [47]) ->
  d (in_dir out (compressed (day_text t) (two rl))) = Some z -> gunzip z = None ->
  let d' := put d (in_dir out (product (day_text t) (two rl))) [] in
  main day_text year_text retr connect gunzip false true rl out t None d = (d', Raise OSError) /\
  forall e retr' connect' gunzip' dcmp, e (in_dir out (compressed (day_text t) (two rl))) = None -> e (in_dir out (product (day_text t) (two rl))) = Some [] ->
    main day_text year_text retr' connect' gunzip' false dcmp rl out t None e = (e, Val tt).
Proof.
  intros dt yt retr connect gunzip out rl t d z DT YT NE NS E G. cbn zeta. split.
  - unfold main. replace (Z.to_nat (t + 1 - t)) with 1%nat by lia. cbn [days]. rewrite (one_day_is dt yt retr connect gunzip out rl DT YT NE NS). rewrite (proj2 (present_some d _)) by (rewrite E; discriminate). unfold decomp. rewrite E, G. reflexivity.
  - intros e retr' connect' gunzip' dcmp N P. unfold main. replace (Z.to_nat (t + 1 - t)) with 1%nat by lia. cbn [days]. rewrite (one_day_is dt yt retr' connect' gunzip' out rl DT YT NE NS). rewrite (proj2 (present_none e _) N), (proj2 (present_some e _)) by (rewrite P; discriminate). reflexivity.
Qed.
Definition some_day (t : Z) : list Z := chars "2023-12-" ++ str_int t.
Definition some_year (_ : Z) : list Z := chars "2023".
Definition some_retr (dir f : list Z) : option (list Z) := if text_eqb dir (chars "/grace/Level-1B/GFZ/AOD/RL06/2023") then Some f else None.
Definition some_files : files := fun f => if text_eqb f (chars "out/AOD1B_2023-12-28_X_06.asc") then Some [1] else None.
Definition some_run : files * py unit := main some_day some_year some_retr (fun _ _ => true) (fun z => Some (skipn 6 z)) false true 6 (chars "out") 27 (Some 30) some_files.
Example c86_nonvacuous : snd some_run = Val tt /\
  fst some_run (chars "out/AOD1B_2023-12-27_X_06.asc.gz") = Some (chars "AOD1B_2023-12-27_X_06.asc.gz") /\ fst some_run (chars "out/AOD1B_2023-12-27_X_06.asc") = Some (chars "2023-12-27_X_06.asc.gz") /\
  fst some_run (chars "out/AOD1B_2023-12-28_X_06.asc.gz") = None /\ fst some_run (chars "out/AOD1B_2023-12-28_X_06.asc") = Some [1] /\
  fst some_run (chars "out/AOD1B_2023-12-29_X_06.asc") <> None /\ fst some_run (chars "out/AOD1B_2023-12-30_X_06.asc.gz") = None /\
  (forall t, numeric (some_day t)) /\ (forall t, numeric (some_year t)) /\ (forall r, chars "out" <> r ++ [47]).
Proof.
  split; [vm_compute; reflexivity|]. split; [vm_compute; reflexivity|]. split; [vm_compute; reflexivity|]. split; [vm_compute; reflexivity|]. split; [vm_compute; reflexivity|]. split; [vm_compute; discriminate|]. split; [vm_compute; reflexivity|]. split; [|split].
  - intros t. apply Forall_app. split; [|apply str_numeric]. change (chars "2023-12-") with [50; 48; 50; 51; 45; 49; 50; 45]. repeat constructor; lia.
  - intros t. unfold some_year. change (chars "2023") with [50; 48; 50; 51]. repeat constructor; lia.
  - intros r E. apply (f_equal (@rev Z)) in E. rewrite rev_app_distr in E. vm_compute in E. discriminate.
Qed.
Print Assumptions c86_name.
Print Assumptions c86_release.
Print Assumptions c86_run.
Print Assumptions c86_content.
Print Assumptions c86_complete.
Print Assumptions c86_skip.
Print Assumptions c86_default.
Print Assumptions c86_tidal_refuted.
Print Assumptions c86_failed_refuted.
Print Assumptions c86_gunzip_refuted.
