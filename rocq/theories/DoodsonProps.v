(** Properties C11-C13, C55, C56 (Doodson numbers). *)
From Coq Require Import Ascii String ZArith List Bool Reals Lra Lia.
From Verif Require Import Base CString DoodsonModel DoodsonSpec DoodsonProofs Angles DoodsonArgModel DoodsonArgSpec DoodsonArgProofs.
Import ListNotations.
Open Scope Z_scope.

(** ** C11 text round trip *)
(** whatever follows the seven characters in the buffer; exactly the representable multipliers *)
Theorem c11_roundtrip : forall d rest,
  from_chars (str_bytes d true ++ rest) = Ok (Some (no_pi d)) <-> representable d.
Proof. exact roundtrip_iff. Qed.
Print Assumptions c11_roundtrip.

(** the other way: writing what was read gives the text read, in lower case *)
Theorem c11_text_roundtrip : forall s d,
  from_chars s = Ok (Some d) -> str_bytes d true = map fold_case (firstn 7 s).
Proof. exact text_roundtrip. Qed.
Print Assumptions c11_text_roundtrip.

Theorem c11_injective : forall d d',
  representable d -> representable d' -> str_bytes d true = str_bytes d' true -> no_pi d = no_pi d'.
Proof. exact str_injective. Qed.
Print Assumptions c11_injective.

(** writing into a buffer of at least 8 bytes touches the first 8 only *)
Theorem c11_buffer : forall buf d fives, (8 <= length buf)%nat ->
  str buf d fives = Ok (str_bytes d fives ++ [0] ++ skipn 8 buf).
Proof. exact str_buffer. Qed.
Print Assumptions c11_buffer.

(** the documented minimum size (7, include/doodson.hpp:219) overflows *)
Theorem c11_buffer_refuted : forall d fives, str (repeat 1 7) d fives = UB.
Proof. intros. apply str_overflow. simpl. lia. Qed.
Print Assumptions c11_buffer_refuted.

(** without the +5 convention the text does not read back *)
Theorem c11_no_fives_refuted : exists d, representable d /\
  from_chars (str_bytes d false ++ [0]) <> Ok (Some (no_pi d)).
Proof. exists (mkD 2 0 0 0 0 0 0). split; [unfold representable; simpl; lia|]. vm_compute. discriminate. Qed.
Print Assumptions c11_no_fives_refuted.

(** the text drops the Doodson-Warburg factor, which operator== compares *)
Theorem c11_equality_refuted : exists w d, In w oceanic /\
  from_chars (str_bytes (dn w) true ++ [0]) = Ok (Some d) /\ eqb (dn w) d = false.
Proof.
  exists (e 1 1 0 0 0 0 1 0 "K1"), (mkD 1 1 0 0 0 0 0). split; [|split; reflexivity].
  unfold oceanic. do 11 right. left. reflexivity.
Qed.
Print Assumptions c11_equality_refuted.

Example c11_nonvacuous : from_chars (chars "z5a.Am0") = Ok (Some (mkD (-1) 0 5 5 17 (-5) 0)) /\
  representable (mkD (-13) 17 (-18) 5 0 (-6) 2) /\
  str_bytes (mkD 1 (-3) (-2) (-1) 0 1 0) true = chars "123.456".
Proof. split; [vm_compute; reflexivity|]. split; [unfold representable; simpl; lia|vm_compute; reflexivity]. Qed.

(** ** C12 malformed text *)
Theorem c12_accepts_exactly : forall s d, from_chars s = Ok (Some d) <-> text_denotes s d.
Proof. exact from_chars_iff. Qed.
Print Assumptions c12_accepts_exactly.

(** Partial: rejection by exception needs a terminated string of at least seven bytes without negative chars. *)
Theorem c12_rejects_partial : forall s, (7 <= length s)%nat -> Forall (fun c => -1 <= c) s -> In 0 s ->
  (~ exists d, text_denotes s d) -> from_chars s = Ok None.
Proof. exact from_chars_rejects. Qed.
Print Assumptions c12_rejects_partial.

(** three legal characters and the terminator: the character after the terminator is read *)
Theorem c12_short_text_refuted : from_chars (cstring "165") = UB.
Proof. reflexivity. Qed.
Print Assumptions c12_short_text_refuted.
(** "does not have to be null-terminated" (include/doodson.hpp:150): the message prints it as a string *)
Theorem c12_unterminated_refuted : from_chars (chars "165-555") = UB.
Proof. reflexivity. Qed.
Print Assumptions c12_unterminated_refuted.
(** a byte of a non-ASCII letter is outside the domain of std::isdigit *)
Theorem c12_nonascii_refuted : from_chars (cstring "π65.555") = UB.
Proof. reflexivity. Qed.
Print Assumptions c12_nonascii_refuted.

(** the IERS-2010 resolver: leading blanks skipped, digits resolved *)
Theorem c12_resolver_digits : forall k a b c e f g va vb vc ve vf vg rest,
  digit a va -> digit b vb -> digit c vc -> digit e ve -> digit f vf -> digit g vg ->
  resolve_iers10 (repeat 32 k ++ a :: b :: c :: 46 :: e :: f :: g :: rest) =
  Ok (Some (mkD va (vb - 5) (vc - 5) (ve - 5) (vf - 5) (vg - 5) 0)).
Proof. exact resolve_digits. Qed.
Print Assumptions c12_resolver_digits.

(** exactly which seven-character texts the resolver accepts: more than digits *)
Theorem c12_resolver_accepts : forall k a b c p e f g rest, a <> 32 ->
  ((exists d, resolve_iers10 (repeat 32 k ++ a :: b :: c :: p :: e :: f :: g :: rest) = Ok (Some d)) <->
   p = 46 /\ 39 <= a <= 57 /\ (forall x, In x [b; c; e; f; g] -> 44 <= x <= 62)).
Proof. exact resolve_accepts_iff. Qed.
Print Assumptions c12_resolver_accepts.

Theorem c12_resolver_refuted :
  resolve_iers10 (cstring "'>/.,:;") = Ok (Some (mkD (-9) 9 (-6) (-9) 5 6 0)) /\
  ~ (exists d, text_denotes (cstring "'>/.,:;") d) /\ resolve_iers10 (cstring "165") = UB.
Proof.
  split; [reflexivity|]. split; [|reflexivity]. intros (d & Hd). apply from_chars_accepts in Hd. vm_compute in Hd. discriminate.
Qed.
Print Assumptions c12_resolver_refuted.

Example c12_nonvacuous : from_chars (cstring "16+.555") = Ok None /\ from_chars (cstring "165x555") = Ok None /\
  resolve_iers10 (cstring "  165.545") = Ok (Some (mkD 1 1 0 0 (-1) 0 0)) /\
  (7 <= length (cstring "16+.555"))%nat /\ In 0 (cstring "16+.555").
Proof. split; [reflexivity|]. split; [reflexivity|]. split; [reflexivity|]. split; [simpl; lia|]. simpl. tauto. Qed.

(** ** C13 tidal argument *)
Theorem c13_argument : forall n F gmst,
  argument n (delaunay2doodson F gmst) = anp (iers_argument n F gmst).
Proof. exact argument_iers. Qed.
Print Assumptions c13_argument.

Theorem c13_additive : forall n m f, eqm (argument (dadd n m) f) (argument n f + argument m f).
Proof. exact argument_additive. Qed.
Print Assumptions c13_additive.

Theorem c13_range : forall n f F gmst, (0 <= argument n f < 2 * PI)%R /\
  let v := delaunay2doodson F gmst in
  (0 <= vtau v < 2 * PI /\ 0 <= vs v < 2 * PI /\ 0 <= vh v < 2 * PI /\ 0 <= vp v < 2 * PI /\
   0 <= vn v < 2 * PI /\ 0 <= vps v < 2 * PI)%R.
Proof. intros. split; [apply argument_range|apply variables_range]. Qed.
Print Assumptions c13_range.

(** the Delaunay multipliers of IERS Table 6.5a: O1 (145.555) is 2F + 2 Omega; Q1 (135.655) is l + 2F + 2 Omega *)
Example c13_nonvacuous :
  let o1 := mkD 1 (-1) 0 0 0 0 0 in let q1 := mkD 1 (-2) 0 1 0 0 0 in
  (nl o1, nlp o1, nF o1, nD o1, nOm o1) = (0, 0, 2, 0, 2) /\ (nl q1, nlp q1, nF q1, nD q1, nOm q1) = (1, 0, 2, 0, 2) /\
  argument (mkD 0 0 0 0 1 0 0) (delaunay2doodson (mkDel 0 0 0 0 (-1)) 0) = 1%R.
Proof.
  split; [reflexivity|]. split; [reflexivity|]. rewrite argument_iers. unfold iers_argument, nl, nlp, nF, nD, nOm. simpl.
  replace (_ - _)%R with 1%R by ring. apply anp_id. pose proof PI2_1. lra.
Qed.

(** ** C55 wave tables and lookups *)
Theorem c55_ocean_by_name : forall n w,
  match_ocean_name n = Some w <-> In w oceanic /\ map fold_case n = map fold_case (nm w).
Proof. intros. split; [apply ocean_name_sound|]. intros [H1 H2]. apply ocean_name_found; assumption. Qed.
Print Assumptions c55_ocean_by_name.

Theorem c55_atmospheric_by_name : forall n w, find_wave_entry n = Some w <-> In w atmospheric /\ nm w = n.
Proof. intros. split; [apply atmospheric_sound|]. intros [H <-]. apply atmospheric_found, H. Qed.
Print Assumptions c55_atmospheric_by_name.

(** Partial: by Doodson number an entry is found from its own number including the Doodson-Warburg factor,
    and is not found when the six multipliers agree but the factor does not. *)
Theorem c55_ocean_by_number_partial : forall w d, In w oceanic ->
  match_ocean_doodson (dn w) = Some w /\
  (no_pi d = no_pi (dn w) -> pifac d <> pifac (dn w) -> match_ocean_doodson d = None).
Proof. exact ocean_doodson_found. Qed.
Print Assumptions c55_ocean_by_number_partial.

(** so the number read from the text of a table wave need not be found *)
Theorem c55_parsed_number_refuted : exists w d, In w oceanic /\
  from_chars (str_bytes (dn w) true ++ [0]) = Ok (Some d) /\ match_ocean_doodson d = None.
Proof.
  exists (e 1 1 0 0 0 0 1 0 "K1"), (mkD 1 1 0 0 0 0 0). split; [|split; reflexivity].
  unfold oceanic. do 11 right. left. reflexivity.
Qed.
Print Assumptions c55_parsed_number_refuted.

(** every table name fits the 16-byte member with its terminator; a caller's name keeps a terminator exactly when
    shorter than 16 characters *)
Theorem c55_names_fit : forall w, In w (atmospheric ++ oceanic) ->
  0 < Z.of_nat (length (nm w)) < MAX_CHARS_TIDAL_WAVE /\ ~ In 0 (nm w).
Proof. exact table_names_fit. Qed.
Print Assumptions c55_names_fit.
Theorem c55_name_terminated : forall n, ~ In 0 n -> (In 0 (strncpy16 n) <-> (length n < 16)%nat).
Proof. exact strncpy_terminated. Qed.
Print Assumptions c55_name_terminated.
Theorem c55_name_refuted : ~ In 0 (strncpy16 (chars "an-overly-long-wave-name")).
Proof. vm_compute. intuition discriminate. Qed.
Print Assumptions c55_name_refuted.

Example c55_nonvacuous : match_ocean_name (chars "epsilon2") = Some (e 2 (-3) 2 1 0 0 0 0 "Epsilon2") /\
  find_wave_entry (chars "m2") = None /\ In (e 1 1 0 0 0 0 1 0 "K1") oceanic.
Proof. split; [reflexivity|]. split; [reflexivity|]. unfold oceanic. do 11 right. left. reflexivity. Qed.

(** ** C56 tabulated speeds *)
(** Partial: all atmospheric waves but L2 have the speed of their Doodson number to 1e-5 deg/hour. *)
Theorem c56_speeds_partial : forall w, In w atmospheric -> nm w <> chars "L2" ->
  Z.abs (10 * speed (dn w) - per w) <= 10000.
Proof. exact table_speeds. Qed.
Print Assumptions c56_speeds_partial.
(** L2 carries the speed of N2: off by more than one degree per hour *)
Theorem c56_l2_refuted : exists w, In w atmospheric /\ nm w = chars "L2" /\ 10 * speed (dn w) - per w > 1000000000 /\
  exists v, In v atmospheric /\ nm v = chars "N2" /\ per v = per w.
Proof.
  exists (e 2 1 0 (-1) 0 0 2 28439729500 "L2"). split; [unfold atmospheric; do 11 right; left; reflexivity|].
  split; [reflexivity|]. split; [reflexivity|]. exists (e 2 (-1) 0 1 0 0 0 28439729500 "N2").
  split; [unfold atmospheric; do 10 right; left; reflexivity|]. split; reflexivity.
Qed.
Print Assumptions c56_l2_refuted.
Example c56_nonvacuous : In (e 2 0 0 0 0 0 0 28984107050 "M2") atmospheric /\ nm (e 2 0 0 0 0 0 0 28984107050 "M2") <> chars "L2".
Proof. split; [unfold atmospheric; do 5 right; left; reflexivity|]. vm_compute. discriminate. Qed.
