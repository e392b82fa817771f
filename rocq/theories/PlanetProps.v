From Coq Require Import Reals ZArith String List Bool Lia.
From Verif Require Import Base CString Vec PlanetModel PlanetSpec PlanetProofs.
Import ListNotations.
Open Scope Z_scope.

(** ** C41 *)
Theorem c41_own_id p : 0 <= p < 8 -> exists b, nth_error bodies (Z.to_nat p) = Some b /\ planet_to_naif_id p = (naif b, 0).
Proof. exact (id_ok p). Qed.
Theorem c41_named : map (fun p => fst (planet_to_naif_id p)) [SUN; MERCURY; VENUS; EARTH; MOON; MARS; JUPITER; SATURN] = [10; 199; 299; 399; 301; 499; 599; 699].
Proof. reflexivity. Qed.
Theorem c41_distinct p q : 0 <= p < 8 -> 0 <= q < 8 -> fst (planet_to_naif_id p) = fst (planet_to_naif_id q) -> p = q.
Proof. exact (ids_differ p q). Qed.
(** other values of the enumeration type are refused *)
Theorem c41_unknown p : ~ 0 <= p < 8 -> snd (planet_to_naif_id p) <> 0.
Proof. intros H. rewrite id_unknown by exact H. discriminate. Qed.
(** the string read from the buffer is the decimal text; bytes behind the stated size are left alone *)
Theorem c41_text junk p buf n : 0 <= p < 8 -> 4 <= n <= Z.of_nat (length buf) -> exists b d out,
  nth_error bodies (Z.to_nat p) = Some b /\ decimal_text d (naif b) /\ planet_to_naif_idstr junk p buf n = Ok (out, 0) /\ c_str out = Ok d /\ length out = length buf.
Proof. exact (idstr_terminated junk p buf n). Qed.
Theorem c41_whole_buffer junk p buf n : 0 <= p < 8 -> 4 <= n <= Z.of_nat (length buf) -> exists b d,
  nth_error bodies (Z.to_nat p) = Some b /\ decimal_text d (naif b) /\ (length d < Z.to_nat n)%nat /\ Forall (fun c => c <> 0) d /\
  planet_to_naif_idstr junk p buf n = Ok (d ++ repeat 0 (Z.to_nat n - length d) ++ skipn (Z.to_nat n) buf, 0).
Proof. exact (idstr_ok junk p buf n). Qed.
Theorem c41_text_unique s t n : decimal_text s n -> decimal_text t n -> s = t.
Proof. exact (text_unique s t n). Qed.
(** the documented minimum is needed: with three bytes success is reported without a terminator *)
Theorem c41_three_bytes junk : exists buf out, length buf = 3%nat /\ planet_to_naif_idstr junk EARTH buf 3 = Ok (out, 0) /\ c_str out = UB.
Proof. exists [0; 0; 0], [51; 57; 57]. repeat split. Qed.
Example c41_nonvacuous : planet_to_naif_idstr (fun _ => 7) SUN [120; 121; 122; 120; 121] 4 = Ok ([49; 48; 0; 0; 121], 0) /\ decimal_text (chars "399") 399.
Proof. split; [reflexivity|]. vm_compute chars. split; [discriminate|]. split; [cbn [In]; intros; lia|]. split; [left; discriminate|reflexivity]. Qed.

(** ** C63 *)
(** unitim, spkezp, spkezr: the functions of CSPICE; [same]: a body may be named by number or text *)
Theorem c63_positions_agree junk unitim spkezp spkezr : (forall t o idt ido et f c, decimal_text t idt -> decimal_text o ido -> fst (spkezr t et f c o) = spkezp idt et f c ido) ->
  forall p jd trg, length trg = 8%nat -> 0 <= p < 8 -> exists b x v,
    nth_error bodies (Z.to_nat p) = Some b /\ planet_pos unitim spkezp p jd = (Some x, 0) /\ planet_state junk unitim spkezr trg p jd = Ok (Some (x, v), 0) /\
    x = vmul 1000 (spkezp (naif b) (unitim jd (chars "JDTDT") (chars "ET")) (chars "J2000") (chars "NONE") (naif (Planet_no 3))).
Proof. exact (positions_agree junk unitim spkezp spkezr). Qed.
(** position and velocity in metres if CSPICE answers in kilometres *)
Theorem c63_state junk unitim spkezr p jd trg : length trg = 8%nat -> 0 <= p < 8 -> exists b d, nth_error bodies (Z.to_nat p) = Some b /\ decimal_text d (naif b) /\
  let s := spkezr d (unitim jd (chars "JDTDT") (chars "ET")) (chars "J2000") (chars "NONE") (chars "399") in
  planet_state junk unitim spkezr trg p jd = Ok (Some (vmul 1000 (fst s), vmul 1000 (snd s)), 0).
Proof.
  intros L P. destruct (idstr_terminated junk p trg 8 P ltac:(rewrite L; lia)) as (b & d & out & E & T & Q & C & _).
  exists b, d. split; [exact E|]. split; [exact T|]. unfold planet_state. rewrite Q. cbn [bind Z.eqb negb]. rewrite C. reflexivity.
Qed.
(** unknown planets: error, nothing written *)
Theorem c63_unknown junk unitim spkezp spkezr p jd trg : length trg = 8%nat -> ~ 0 <= p < 8 ->
  planet_pos unitim spkezp p jd = (None, 2) /\ planet_state junk unitim spkezr trg p jd = Ok (None, 1).
Proof. exact (unknown_refused junk unitim spkezp spkezr p jd trg). Qed.
(** one kilometre is 1000 metres, so a cubic kilometre is 10^9 cubic metres *)
Theorem c63_gm_units bodvrd : let km := sun_moon_gm bodvrd false in let si := sun_moon_gm bodvrd true in
  (fst si = fst km * (1000 * 1000 * 1000) /\ snd si = snd km * (1000 * 1000 * 1000))%R /\ fst km = bodvrd (chars "SUN") (chars "GM") /\ snd km = bodvrd (chars "MOON") (chars "GM").
Proof. cbn. repeat split; ring. Qed.
Example c63_nonvacuous : exists (spkezp : Z -> R -> list Z -> list Z -> Z -> v3) (spkezr : list Z -> R -> list Z -> list Z -> list Z -> v3 * v3), forall t o idt ido et f c, decimal_text t idt -> decimal_text o ido -> fst (spkezr t et f c o) = spkezp idt et f c ido.
Proof. exists (fun i et f c o => mk3 (IZR i) et (IZR o)), (fun t et f c o => (mk3 (IZR (value t)) et (IZR (value o)), v0)). intros t o idt ido et f c (_ & _ & _ & <-) (_ & _ & _ & <-). reflexivity. Qed.

(** ** C42 *)
(** [parts]: what a meta-kernel contains; names up to 127 characters of which no loaded name is a continuation *)
Theorem c42_once_partial parts readable k l l' : Z.of_nat (length k) < 128 -> (forall f, In f l -> ~ shorter_part k f) -> ~ In k (parts k) -> (count_occ name_eq l k <= 1)%nat ->
  load_if_unloaded parts readable k l = Ok l' -> count_occ name_eq l' k = 1%nat.
Proof. exact (load_once parts readable k l l'). Qed.
Theorem c42_succeeds parts readable k l : readable k = true -> exists l', load_if_unloaded parts readable k l = Ok l'.
Proof. exact (load_available parts readable k l). Qed.
(** asking again changes nothing *)
Theorem c42_idempotent_partial parts readable k l l' : Z.of_nat (length k) < 128 -> load_if_unloaded parts readable k l = Ok l' -> load_if_unloaded parts readable k l' = Ok l'.
Proof. exact (load_twice parts readable k l l'). Qed.
(** nothing else is loaded, nothing is unloaded *)
Theorem c42_only_this parts readable k l l' : load_if_unloaded parts readable k l = Ok l' -> l' = l \/ l' = l ++ k :: parts k.
Proof. exact (load_grows parts readable k l l'). Qed.
(** every sequence of requests for ordinary kernels: each is loaded exactly once *)
Theorem c42_history_partial parts readable ks l l' : (forall k, In k ks -> Z.of_nat (length k) < 128 /\ parts k = []) ->
  (forall k f, In k ks -> In f (l ++ ks) -> ~ shorter_part k f) -> (forall k, (count_occ name_eq l k <= 1)%nat) ->
  fold_res (fun s k => load_if_unloaded parts readable k s) ks l = Ok l' ->
  (forall k, In k ks -> count_occ name_eq l' k = 1%nat) /\ (forall f, In f l' <-> In f (l ++ ks)) /\ (forall k, (count_occ name_eq l' k <= 1)%nat).
Proof. exact (history parts readable ks l l'). Qed.
(** false in general: a kernel whose name begins the name of a loaded one is not loaded *)
Theorem c42_prefix_refuted : let de := chars "de440.bsp" in let other := chars "de440.bsp.new" in let every := fun _ : list Z => true in
  load_if_unloaded (fun _ => []) every de [other] = Ok [other] /\ ~ In de [other].
Proof. split; [reflexivity|]. intros [E|[]]. discriminate. Qed.
(** for every name and every longer name *)
Theorem c42_prefix_never_loaded_refuted parts readable k f l : Z.of_nat (length k) < 128 -> shorter_part k f -> In f l -> ~ In k l ->
  load_if_unloaded parts readable k l = Ok l.
Proof. intros L S I N. destruct (load_cases parts readable k l L) as [[_ Q]|[F _]]; [exact Q|]. destruct (proj2 (F f I) S). Qed.
(** a name of 128 characters is loaded again with every request *)
Theorem c42_long_name_refuted parts readable k l : 128 <= Z.of_nat (length k) -> readable k = true -> load_if_unloaded parts readable k l = Ok (l ++ k :: parts k).
Proof.
  intros L A. unfold load_if_unloaded. replace (existsb _ l) with false; [unfold furnsh; rewrite A; reflexivity|]. symmetry. apply not_true_iff_false. intros E. apply existsb_exists in E as (f & _ & S).
  apply starts_spec in S as [t S]. apply (f_equal (@length Z)) in S. rewrite app_length in S. unfold kdata, FILLEN in S. rewrite firstn_length in S. change (Z.to_nat (128 - 1)) with 127%nat in S. lia.
Qed.
(** a meta-kernel requested after one of its parts loads the part again *)
Theorem c42_meta_refuted : exists parts, let a := chars "a.tls" in let m := chars "m.tm" in
  fold_res (fun s k => load_if_unloaded parts (fun _ => true) k s) [a; m] [] = Ok [a; m; a] /\ parts a = [].
Proof. exists (fun k => if name_eq k (chars "m.tm") then [chars "a.tls"] else []). split; reflexivity. Qed.
Example c42_nonvacuous : let a := chars "naif0012.tls" in let b := chars "de440.bsp" in
  fold_res (fun s k => load_if_unloaded (fun _ => []) (fun _ => true) k s) [a; b; a; b; b] [] = Ok [a; b] /\
  (forall k f, In k [a; b] -> In f [a; b] -> ~ shorter_part k f).
Proof.
  split; [reflexivity|]. vm_compute chars. intros k f [<-|[<-|[]]] [<-|[<-|[]]] (t & N & E); cbn [app] in E; try discriminate.
  all: repeat (injection E as E); congruence.
Qed.
Print Assumptions c41_own_id.
Print Assumptions c41_named.
Print Assumptions c41_distinct.
Print Assumptions c41_unknown.
Print Assumptions c41_text.
Print Assumptions c41_whole_buffer.
Print Assumptions c41_text_unique.
Print Assumptions c41_three_bytes.
Print Assumptions c63_positions_agree.
Print Assumptions c63_state.
Print Assumptions c63_unknown.
Print Assumptions c63_gm_units.
Print Assumptions c42_once_partial.
Print Assumptions c42_succeeds.
Print Assumptions c42_idempotent_partial.
Print Assumptions c42_only_this.
Print Assumptions c42_history_partial.
Print Assumptions c42_prefix_refuted.
Print Assumptions c42_prefix_never_loaded_refuted.
Print Assumptions c42_long_name_refuted.
Print Assumptions c42_meta_refuted.
