(** Proofs about planets and kernels. *)
From Coq Require Import Reals ZArith String List Bool Lia.
From Verif Require Import Base CString Vec PlanetModel PlanetSpec.
Import ListNotations.
Open Scope Z_scope.

Definition ids : list Z := [399; 301; 10; 199; 299; 499; 599; 699].
Lemma enumerated p : 0 <= p < 8 -> In p [0; 1; 2; 3; 4; 5; 6; 7].
Proof. intros. assert (p = 0 \/ p = 1 \/ p = 2 \/ p = 3 \/ p = 4 \/ p = 5 \/ p = 6 \/ p = 7) by lia. cbn [In]. intuition. Qed.
Ltac each H := apply enumerated in H; cbn [In] in H; repeat (destruct H as [<-|H]; [|]); [..|contradiction].

Lemma id_ok p : 0 <= p < 8 -> exists b, nth_error bodies (Z.to_nat p) = Some b /\ planet_to_naif_id p = (naif b, 0).
Proof. intros H. each H; eexists; split; reflexivity. Qed.
Lemma id_unknown p : ~ 0 <= p < 8 -> planet_to_naif_id p = (int_max, 1).
Proof.
  intros H. unfold planet_to_naif_id, planet_table. cbn [find fst].
  unfold EARTH, MOON, SUN, MERCURY, VENUS, MARS, JUPITER, SATURN.
  repeat match goal with |- context [?a =? p] => destruct (Z.eqb_spec a p); [lia|] end. reflexivity.
Qed.
Lemma ids_differ p q : 0 <= p < 8 -> 0 <= q < 8 -> fst (planet_to_naif_id p) = fst (planet_to_naif_id q) -> p = q.
Proof. intros P Q. each P; each Q; vm_compute; intros E; congruence. Qed.

Lemma text_of p : 0 <= p < 8 -> exists b, nth_error bodies (Z.to_nat p) = Some b /\ let d := decimal (naif b) in decimal_text d (naif b) /\ (2 <= length d <= 3)%nat /\ Forall (fun c => c <> 0) d.
Proof.
  intros H. each H; eexists; (split; [reflexivity|]); vm_compute decimal; cbv zeta;
    (split; [|split; [cbn [length]; lia|repeat constructor; discriminate]]);
    (split; [discriminate|split; [cbn [In]; intros c C; lia|split; [left; discriminate|reflexivity]]]).
Qed.
Lemma skipn_repeat {X} (x : X) k n : skipn k (repeat x n) = repeat x (n - k).
Proof. revert n. induction k as [|k IH]; intros [|n]; cbn [skipn repeat Nat.sub]; auto. Qed.
Lemma c_str_text d rest : Forall (fun c => c <> 0) d -> c_str (d ++ 0 :: rest) = Ok d.
Proof. induction 1 as [|c d C _ IH]; cbn [app c_str]; [reflexivity|]. destruct (Z.eqb_spec c 0); [lia|]. rewrite IH. reflexivity. Qed.

(** every buffer with room for the text and its terminator *)
Lemma idstr_ok junk p buf n : 0 <= p < 8 -> 4 <= n <= Z.of_nat (length buf) ->
  exists b d, nth_error bodies (Z.to_nat p) = Some b /\ decimal_text d (naif b) /\ (length d < Z.to_nat n)%nat /\ Forall (fun c => c <> 0) d /\
    planet_to_naif_idstr junk p buf n = Ok (d ++ repeat 0 (Z.to_nat n - length d) ++ skipn (Z.to_nat n) buf, 0).
Proof.
  intros P N. destruct (text_of p P) as (b & E & T & L & F). set (d := decimal (naif b)) in *.
  exists b, d. refine (conj E (conj T (conj _ (conj F _)))); [lia|].
  unfold planet_to_naif_idstr, memset0. rewrite (proj2 (Z.leb_le 0 n)), (proj2 (Z.leb_le n _)) by lia. cbn [andb bind].
  destruct (id_ok p P) as (b' & E' & ->). assert (b' = b) as -> by congruence. cbn [Z.eqb negb].
  unfold to_chars. fold d. rewrite (proj2 (Z.leb_le _ n)) by lia.
  rewrite skipn_app, repeat_length, skipn_repeat. rewrite (proj2 (Nat.sub_0_le (length d) _)) by lia. reflexivity.
Qed.
Lemma idstr_terminated junk p buf n : 0 <= p < 8 -> 4 <= n <= Z.of_nat (length buf) ->
  exists b d out, nth_error bodies (Z.to_nat p) = Some b /\ decimal_text d (naif b) /\ planet_to_naif_idstr junk p buf n = Ok (out, 0) /\ c_str out = Ok d /\ length out = length buf.
Proof.
  intros P N. destruct (idstr_ok junk p buf n P N) as (b & d & E & T & L & F & Q).
  exists b, d, (d ++ repeat 0 (Z.to_nat n - length d) ++ skipn (Z.to_nat n) buf). refine (conj E (conj T (conj Q (conj _ _)))).
  - destruct (Z.to_nat n - length d)%nat as [|k] eqn:K; [lia|]. cbn [repeat]. rewrite <- !app_comm_cons. apply c_str_text, F.
  - rewrite !app_length, repeat_length, skipn_length. lia.
Qed.
(** an unknown planet: the buffer is cleared *)
Lemma idstr_unknown junk p buf n : ~ 0 <= p < 8 -> 0 <= n <= Z.of_nat (length buf) -> planet_to_naif_idstr junk p buf n = Ok (repeat 0 (Z.to_nat n) ++ skipn (Z.to_nat n) buf, 1).
Proof.
  intros P N. unfold planet_to_naif_idstr, memset0. rewrite (proj2 (Z.leb_le 0 n)), (proj2 (Z.leb_le n _)) by lia. cbn [andb bind].
  rewrite id_unknown by exact P. reflexivity.
Qed.
(** decimal texts are unique *)
Lemma value_app s c : value (s ++ [c]) = 10 * value s + (c - 48).
Proof. unfold value. rewrite fold_left_app. reflexivity. Qed.
Lemma value_pos s : (forall c, In c s -> 48 <= c <= 57) -> 0 <= value s /\ (s <> [] -> hd 0 s <> 48 -> 0 < value s).
Proof.
  induction s as [|c s IH] using rev_ind; intros D; [split; [unfold value; cbn; lia|congruence]|]. rewrite value_app.
  assert (48 <= c <= 57) by (apply D; rewrite in_app_iff; right; left; reflexivity).
  destruct IH as [A B]; [intros x X; apply D; rewrite in_app_iff; auto|]. split; [lia|]. intros _ N. destruct s as [|a s]; [cbn in *; lia|].
  cbn [hd app] in *. specialize (B ltac:(discriminate) N). lia.
Qed.
Lemma value_inj s t : (forall c, In c s -> 48 <= c <= 57) -> (forall c, In c t -> 48 <= c <= 57) ->
  (hd 0 s <> 48 \/ length s = 1%nat) -> (hd 0 t <> 48 \/ length t = 1%nat) -> s <> [] -> t <> [] -> value s = value t -> s = t.
Proof.
  revert t. induction s as [|c s IH] using rev_ind; intros t D E Hs Ht Ns Nt V; [congruence|].
  destruct t as [|e t _] using rev_ind; [congruence|]. rewrite !value_app in V.
  assert (48 <= c <= 57) by (apply D; rewrite in_app_iff; right; left; reflexivity).
  assert (48 <= e <= 57) by (apply E; rewrite in_app_iff; right; left; reflexivity).
  assert (c = e /\ value s = value t) as [-> V'] by lia. f_equal.
  assert (Ds : forall c, In c s -> 48 <= c <= 57) by (intros x X; apply D; rewrite in_app_iff; auto).
  assert (Dt : forall c, In c t -> 48 <= c <= 57) by (intros x X; apply E; rewrite in_app_iff; auto).
  destruct (value_pos s Ds) as [_ Ps], (value_pos t Dt) as [_ Pt].
  destruct s as [|a s], t as [|b t]; [reflexivity|..].
  - exfalso. cbn [app hd length] in Ht. rewrite app_length in Ht; cbn [length] in Ht. destruct Ht as [Ht|Ht]; [|lia]. specialize (Pt ltac:(discriminate) Ht). change (value []) with 0 in V'. lia.
  - exfalso. cbn [app hd length] in Hs. rewrite app_length in Hs; cbn [length] in Hs. destruct Hs as [Hs|Hs]; [|lia]. specialize (Ps ltac:(discriminate) Hs). change (value []) with 0 in V'. lia.
  - apply IH; auto; try discriminate; left.
    + cbn [app hd length] in *. rewrite app_length in Hs; cbn [length] in Hs. destruct Hs as [Hs|Hs]; [exact Hs|lia].
    + cbn [app hd length] in *. rewrite app_length in Ht; cbn [length] in Ht. destruct Ht as [Ht|Ht]; [exact Ht|lia].
Qed.
Lemma text_unique s t n : decimal_text s n -> decimal_text t n -> s = t.
Proof. intros (A & B & C & D) (A' & B' & C' & D'). apply value_inj; auto. congruence. Qed.

(** ** ephemeris *)
Section Ephemeris.
  Variable junk : Z -> Z.
  Variable unitim : R -> list Z -> list Z -> R.
  Variable spkezp : Z -> R -> list Z -> list Z -> Z -> v3.
  Variable spkezr : list Z -> R -> list Z -> list Z -> list Z -> v3 * v3.
  (** CSPICE's two entry points answer the same question *)
  Hypothesis same : forall t o idt ido et f c, decimal_text t idt -> decimal_text o ido -> fst (spkezr t et f c o) = spkezp idt et f c ido.
  Lemma positions_agree p jd trg : length trg = 8%nat -> 0 <= p < 8 -> exists b x v,
    nth_error bodies (Z.to_nat p) = Some b /\
    planet_pos unitim spkezp p jd = (Some x, 0) /\ planet_state junk unitim spkezr trg p jd = Ok (Some (x, v), 0) /\
    x = vmul 1000 (spkezp (naif b) (unitim jd (chars "JDTDT") (chars "ET")) (chars "J2000") (chars "NONE") (naif (Planet_no 3))).
  Proof.
    intros L P. destruct (idstr_terminated junk p trg 8 P ltac:(rewrite L; lia)) as (b & d & out & E & T & Q & C & _).
    destruct (id_ok p P) as (b' & E' & I). assert (b' = b) as -> by congruence.
    exists b. do 2 eexists. split; [exact E|]. unfold planet_pos. rewrite I. cbn [Z.eqb negb]. split; [reflexivity|]. split; [|reflexivity].
    unfold planet_state. rewrite Q. cbn [bind Z.eqb negb]. rewrite C. cbn [bind].
    rewrite <- (same d (chars "399") (naif b) 399); [reflexivity|exact T|].
    vm_compute chars. split; [discriminate|]. split; [cbn [In]; intros c W; lia|]. split; [left; discriminate|reflexivity].
  Qed.
  Lemma unknown_refused p jd trg : length trg = 8%nat -> ~ 0 <= p < 8 -> planet_pos unitim spkezp p jd = (None, 2) /\ planet_state junk unitim spkezr trg p jd = Ok (None, 1).
  Proof.
    intros L P. unfold planet_pos, planet_state. rewrite id_unknown by exact P. rewrite idstr_unknown by (auto; rewrite L; lia). split; reflexivity.
  Qed.
End Ephemeris.

(** ** kernels *)
Lemma starts_spec w f : starts w f = true <-> exists t, f = w ++ t.
Proof.
  revert f. induction w as [|a w IH]; intros f; cbn [starts app].
  - split; [intros _; exists f; reflexivity|reflexivity].
  - destruct f as [|b f]; [split; [discriminate|intros [t E]; discriminate]|]. rewrite andb_true_iff, Z.eqb_eq, IH. split.
    + intros [-> [t ->]]. exists t; reflexivity.
    + intros [t E]. injection E as -> ->. split; [reflexivity|exists t; reflexivity].
Qed.
Lemma listed_spec w f : Z.of_nat (length w) < FILLEN -> starts w (kdata f) = true <-> f = w \/ shorter_part w f.
Proof.
  intros L. unfold FILLEN in L. rewrite starts_spec. unfold kdata, FILLEN. set (n := Z.to_nat (128 - 1)).
  assert (Ln : (length w <= n)%nat) by (unfold n; lia). clearbody n. split.
  - intros [t E]. assert (F : f = w ++ (t ++ skipn n f)) by (rewrite app_assoc, <- E; symmetry; apply firstn_skipn).
    destruct (t ++ skipn n f) as [|c u]; [left; rewrite F; apply app_nil_r|right]. exists (c :: u). split; [discriminate|exact F].
  - intros [->|(t & _ & ->)].
    + exists []. rewrite app_nil_r. apply firstn_all2, Ln.
    + exists (firstn (n - length w) t). rewrite firstn_app. rewrite firstn_all2 by exact Ln. reflexivity.
Qed.
Definition name_eq : forall a b : list Z, {a = b} + {a <> b} := list_eq_dec Z.eq_dec.
Definition times (k : list Z) (loaded : list (list Z)) : nat := count_occ name_eq loaded k.
Lemma shorter_ne w f : shorter_part w f -> f <> w.
Proof. intros (t & N & ->) E. rewrite <- (app_nil_r w) in E at 2. apply app_inv_head in E. congruence. Qed.
Section Kernels.
  Variable parts : list Z -> list (list Z).
  Variable readable : list Z -> bool.
  Notation load := (load_if_unloaded parts readable).
  Lemma load_cases k l : Z.of_nat (length k) < FILLEN ->
    (exists f, In f l /\ (f = k \/ shorter_part k f)) /\ load k l = Ok l \/
    (forall f, In f l -> f <> k /\ ~ shorter_part k f) /\ load k l = furnsh parts readable k l.
  Proof.
    intros L. unfold load_if_unloaded. destruct (existsb _ l) eqn:E.
    - left. apply existsb_exists in E as (f & I & S). apply listed_spec in S; [|exact L]. split; [exists f; auto|reflexivity].
    - right. split; [|reflexivity]. intros f I.
      assert (N : starts k (kdata f) = false) by (destruct (starts k (kdata f)) eqn:S; [|reflexivity]; assert (existsb (fun f => starts k (kdata f)) l = true) by (apply existsb_exists; eauto); congruence).
      split; intros C; (assert (starts k (kdata f) = true) by (apply listed_spec; auto)); congruence.
  Qed.
  (** asking again changes nothing *)
  Lemma load_twice k l l' : Z.of_nat (length k) < FILLEN -> load k l = Ok l' -> load k l' = Ok l'.
  Proof.
    intros L E. destruct (load_cases k l L) as [[_ Q]|[_ Q]]; rewrite Q in E.
    - injection E as <-. exact Q.
    - unfold furnsh in E. destruct (readable k); [|discriminate]. injection E as <-.
      destruct (load_cases k (l ++ k :: parts k) L) as [[_ Q']|[N _]]; [exact Q'|]. exfalso. apply (proj1 (N k ltac:(rewrite in_app_iff; right; left; reflexivity))). reflexivity.
  Qed.
  (** nothing is ever removed, and only the kernel and its parts are added *)
  Lemma load_grows k l l' : load k l = Ok l' -> l' = l \/ l' = l ++ k :: parts k.
  Proof. unfold load_if_unloaded, furnsh. destruct (existsb _ l); [intros E; injection E; auto|]. destruct (readable k); [intros E; injection E; auto|discriminate]. Qed.
  Lemma load_once k l l' : Z.of_nat (length k) < FILLEN -> (forall f, In f l -> ~ shorter_part k f) -> ~ In k (parts k) -> (times k l <= 1)%nat ->
    load k l = Ok l' -> times k l' = 1%nat.
  Proof.
    intros L N P T E. destruct (load_cases k l L) as [[(f & I & [->|S]) Q]|[F Q]]; rewrite Q in E.
    - injection E as <-. apply (count_occ_In name_eq) in I. unfold times in *. lia.
    - exfalso. exact (N f I S).
    - unfold furnsh in E. destruct (readable k); [|discriminate]. injection E as <-. unfold times. rewrite count_occ_app. cbn [count_occ].
      destruct (name_eq k k) as [_|C]; [|congruence]. rewrite (proj1 (count_occ_not_In name_eq (parts k) k)) by exact P.
      rewrite (proj1 (count_occ_not_In name_eq l k)); [reflexivity|]. intros I. apply (proj1 (F k I)). reflexivity.
  Qed.
  Lemma load_available k l : readable k = true -> exists l', load k l = Ok l'.
  Proof. intros A. unfold load_if_unloaded, furnsh. rewrite A. destruct (existsb _ l); eauto. Qed.
  (** any sequence of requests *)
  Lemma history ks : forall l l', (forall k, In k ks -> Z.of_nat (length k) < FILLEN /\ parts k = []) ->
    (forall k f, In k ks -> In f (l ++ ks) -> ~ shorter_part k f) -> (forall k, (times k l <= 1)%nat) ->
    fold_res (fun s k => load k s) ks l = Ok l' ->
    (forall k, In k ks -> times k l' = 1%nat) /\ (forall f, In f l' <-> In f (l ++ ks)) /\ (forall k, (times k l' <= 1)%nat).
  Proof.
    induction ks as [|k ks IH]; intros l l' A N T E; cbn [fold_res] in E.
    - injection E as <-. rewrite app_nil_r. split; [contradiction|]. split; [reflexivity|exact T].
    - destruct (load k l) as [l1| | |] eqn:E1; try discriminate. cbn [bind] in E.
      destruct (A k (or_introl eq_refl)) as [Lk Pk].
      assert (O : times k l1 = 1%nat). { apply (load_once k l); auto; [intros f I; apply N; [left; reflexivity|rewrite in_app_iff; auto]|rewrite Pk; auto]. }
      pose proof (load_grows _ _ _ E1) as G. rewrite Pk in G.
      assert (M : forall f, In f l1 <-> In f l \/ f = k).
      { intros f. destruct G as [->| ->]; [|rewrite in_app_iff; cbn [In]; intuition congruence]. split; [auto|]. intros [I| ->]; [exact I|]. apply (count_occ_In name_eq). unfold times in O. lia. }
      assert (T1 : forall q, (times q l1 <= 1)%nat).
      { intros q. destruct (name_eq q k) as [->|D]; [rewrite O; lia|]. destruct G as [->| ->]; [apply T|]. unfold times. rewrite count_occ_app. cbn [count_occ]. destruct (name_eq k q); [congruence|]. specialize (T q). unfold times in T. lia. }
      destruct (IH l1 l') as (B1 & B2 & B3); auto.
      { intros q Q. apply A. right; exact Q. }
      { intros q f Q F. apply N; [right; exact Q|]. rewrite in_app_iff in *. rewrite M in F. cbn [In]. intuition. }
      split; [|split; [|exact B3]].
      + intros q [<-|Q]; [|auto]. assert (In k l') by (apply B2; rewrite in_app_iff; left; apply M; auto). apply (count_occ_In name_eq) in H. specialize (B3 k). unfold times in *. lia.
      + intros f. rewrite B2. rewrite !in_app_iff, M. cbn [In]. intuition.
  Qed.
End Kernels.
