(** Proofs about the header of AOD1B files: values, texts, faults, copies. *)
From Coq Require Import Ascii String Reals ZArith List Bool Lia Lra.
From Verif Require Import Base CString FromChars FundModel FundProofs Aod1bModel AodBlockModel AodBlockSpec AodBlockProofs AodHeadModel AodHeadSpec AodHeadProofs.
Import ListNotations.
Open Scope Z_scope.

Lemma put_mid p A s T U : length A = p -> (length s <= length T)%nat -> put_text p s (A ++ T ++ U) = A ++ (s ++ skipn (length s) T) ++ U.
Proof.
  intros <- L. unfold put_text. rewrite firstn_app, Nat.sub_diag, firstn_all, firstn_O, app_nil_r. rewrite <- app_assoc. do 2 f_equal.
  rewrite skipn_app, (skipn_all2 A) by lia. cbn [app]. replace (length A + length s - length A)%nat with (length s) by lia.
  rewrite skipn_app. replace (length s - length T)%nat with 0%nat by lia. reflexivity.
Qed.
Lemma skipn_zeros n k : (k <= n)%nat -> skipn k (repeat 0 n) = repeat 0 (n - k).
Proof. revert n; induction k as [|k IH]; intros [|n] L; try reflexivity; try lia. cbn. apply IH. lia. Qed.
Lemma c_str_stop s t : Forall (fun c => c <> 0) s -> c_str (s ++ 0 :: t) = Ok s.
Proof. induction 1 as [|c s N F IH]; [reflexivity|]. cbn [app c_str]. rewrite IH. destruct (Z.eqb_spec c 0); [congruence|reflexivity]. Qed.
Lemma field1_colon p v : field1 p = Ok v -> In 58 p.
Proof.
  unfold field1. induction p as [|c p IH]; [discriminate|]. cbn [after_colon]. destruct (Z.eqb_spec c 58) as [->|N]; [left; reflexivity|]. intros H. right. apply IH, H.
Qed.
Lemma after_last_colon p w : after_last p = Some w -> In 58 p.
Proof.
  revert w; induction p as [|c p IH]; [discriminate|]. cbn [after_last]. intros w. destruct (after_last p) as [u|] eqn:E; [intros _; right; eapply IH; reflexivity|].
  destruct (Z.eqb_spec c 58) as [->|N]; [left; reflexivity|discriminate].
Qed.
Lemma field2_colon p v : field2 p = Ok v -> In 58 p.
Proof. unfold field2. destruct (after_last p) as [w|] eqn:E; [|discriminate]. intros _. eapply after_last_colon, E. Qed.
Lemma drop_In k line p : drop k line = Ok p -> incl p line.
Proof.
  unfold drop. destruct (k <=? length line)%nat; [|discriminate]. intros H. injection H as <-. intros c I. rewrite <- (firstn_skipn k line). apply in_or_app. right; exact I.
Qed.
Lemma field1_none a : no_colon a -> field1 a = UB.
Proof. intros N. unfold field1. rewrite (after_colon_none a N). reflexivity. Qed.
Lemma field2_none a : no_colon a -> field2 a = UB.
Proof. intros N. unfold field2. rewrite (after_last_none a N). reflexivity. Qed.
Lemma drop_field1_none k a : no_colon a -> (p <- drop k a ;; field1 p) = UB.
Proof. intros N. unfold drop. destruct (k <=? length a)%nat; [|reflexivity]. cbn [bind]. apply field1_none, no_colon_skipn, N. Qed.

Section Head.
  Variable W : Type.
  Variable find_wave_entry : list Z -> option W.
  Variable from_char : list Z -> option Z.
  Variable gps2tt : Z -> Z.
  Variable year_start : Z -> Z.
  Variable sdbl : list Z -> option R * list Z.
  Notation head := (head W).
  Notation item := (item W).
  Notation branches := (branches W find_wave_entry from_char gps2tt year_start sdbl).
  Notation choose := (choose W).
  Notation says := (says W find_wave_entry from_char sdbl).
  Notation read_loop := (read_loop W find_wave_entry from_char gps2tt year_start sdbl).
  Notation read_header := (read_header W find_wave_entry from_char gps2tt year_start sdbl).
  Notation header := (header W find_wave_entry from_char sdbl).
  Notation consistent := (consistent W gps2tt).
  Notation arena := (charArena W).
  Notation apply := (apply W gps2tt year_start).
  Notation run := (run W gps2tt year_start).
  Notation fits := (fits W).

  (** ** values *)
  Lemma run_last {A} (get : head -> A) (sel : item -> option A) : (forall i h, get (apply i h) = match sel i with Some x => x | None => get h end) ->
    forall items h, get (run items h) = last_of W sel items (get h).
  Proof.
    intros H items. induction items as [|i items IH]; intros h; [reflexivity|]. change (run (i :: items) h) with (run items (apply i h)). rewrite IH, H. reflexivity.
  Qed.
  Ltac fld := let i := fresh in let h := fresh in intros i h; destruct i as [[] ?|[] ?|[] ?|[] ?|?|[] ? ?|[] ?|?|]; reflexivity.
  Lemma run_num f items h : get_num W f (run items h) = last_of W (num_of W f) items (get_num W f h).
  Proof. apply (run_last (get_num W f)). destruct f; fld. Qed.
  Lemma run_flag f items h : get_flag W f (run items h) = last_of W (flag_of W f) items (get_flag W f h).
  Proof. apply (run_last (get_flag W f)). destruct f; fld. Qed.
  Lemma run_real f items h : get_real W f (run items h) = last_of W (real_of W f) items (get_real W f h).
  Proof. apply (run_last (get_real W f)). destruct f; fld. Qed.
  Lemma run_epoch items h : time_epoch W (run items h) = last_of W (epoch_of W gps2tt) items (time_epoch W h).
  Proof. apply (run_last (time_epoch W)). fld. Qed.
  Lemma run_time w items h : get_time W w (run items h) = last_of W (time_of W gps2tt year_start w) items (get_time W w h).
  Proof. apply (run_last (get_time W w)). destruct w; fld. Qed.
  Lemma run_tide items h : mwave W (run items h) = last_of W (tide_of W) items (mwave W h).
  Proof. apply (run_last (mwave W)). fld. Qed.

  (** ** texts *)
  Definition join (pc : tfield -> list Z) : list Z := pc Agency ++ pc Satellite ++ pc Sensor ++ pc Level ++ pc Pressure.
  Definition sized (pc : tfield -> list Z) : Prop := forall f, length (pc f) = Datatypes.S (width f).
  Definition over (f : tfield) (pc : tfield -> list Z) (i : item) : list Z :=
    match text_of W f i with Some s => s ++ skipn (length s) (pc f) | None => pc f end.
  Lemma over_sized pc i : sized pc -> (forall f s, i = Text f s -> (length s <= width f)%nat) -> sized (fun f => over f pc i).
  Proof.
    intros Z L f. unfold over. destruct (text_of W f i) as [s|] eqn:E; [|apply Z]. assert (i = Text f s) as -> by (destruct i as [g u|g u|g u|g u|u|g u v|g u|u|]; try discriminate; destruct g, f; cbn in E; congruence).
    specialize (L f s eq_refl). rewrite app_length, skipn_length, Z. lia.
  Qed.
  Lemma apply_pieces pc i h : sized pc -> arena h = join pc -> (forall f s, i = Text f s -> (length s <= width f)%nat) -> arena (apply i h) = join (fun f => over f pc i).
  Proof.
    intros Z E L. destruct i as [f s|f n|f b|f x|t|o ns t|o y|v|]; try (destruct f; exact E); try (destruct o; exact E); try exact E.
    specialize (L f s eq_refl). cbn [AodHeadProofs.apply charArena set_arena]. rewrite E. unfold join, over.
    pose proof (Z Agency) as Z1. pose proof (Z Satellite) as Z2. pose proof (Z Sensor) as Z3. pose proof (Z Level) as Z4. pose proof (Z Pressure) as Z5. cbn [width] in *.
    destruct f; cbn [text_of place width] in *.
    - apply (put_mid 0 []); [reflexivity|lia].
    - apply put_mid; lia.
    - rewrite !(app_assoc (pc Agency)). apply put_mid; [rewrite app_length; lia|lia].
    - rewrite !(app_assoc (pc Agency)), !(app_assoc (pc Agency ++ pc Satellite)). apply put_mid; [rewrite !app_length; lia|lia].
    - rewrite !(app_assoc (pc Agency)), !(app_assoc (pc Agency ++ pc Satellite)), !(app_assoc ((pc Agency ++ pc Satellite) ++ pc Sensor)).
      pose proof (put_mid 64 (((pc Agency ++ pc Satellite) ++ pc Sensor) ++ pc Level) s (pc Pressure) []) as P. rewrite !app_nil_r in P. apply P; [rewrite !app_length; lia|lia].
  Qed.
  Definition cover (f : tfield) (items : list item) (v : list Z) : list Z :=
    fold_left (fun v i => match text_of W f i with Some s => s ++ skipn (length s) v | None => v end) items v.
  Lemma run_pieces items : forall pc h, sized pc -> arena h = join pc -> texts_within W width items ->
    sized (fun f => cover f items (pc f)) /\ arena (run items h) = join (fun f => cover f items (pc f)).
  Proof.
    induction items as [|i items IH]; intros pc h Z E L; [split; assumption|].
    change (run (i :: items) h) with (run items (apply i h)).
    assert (L1 : forall f s, i = Text f s -> (length s <= width f)%nat) by (intros f s ->; apply (L f s); left; reflexivity).
    assert (L2 : texts_within W width items) by (intros f s I; apply (L f s); right; exact I).
    destruct (IH (fun f => over f pc i) (apply i h) (over_sized pc i Z L1) (apply_pieces pc i h Z E L1) L2) as (A & B).
    split; [exact A|exact B].
  Qed.
  Lemma cover_none f items v : (forall i, In i items -> text_of W f i = None) -> cover f items v = v /\ last_of W (text_of W f) items v = v.
  Proof.
    revert v; induction items as [|i items IH]; intros v N; [split; reflexivity|]. unfold cover, last_of. cbn [fold_left]. rewrite (N i (or_introl eq_refl)).
    apply IH. intros j I. apply N. right; exact I.
  Qed.
  Lemma once_tail f i items : once W f (i :: items) -> once W f items.
  Proof. intros O a b c x y ->. apply (O (i :: a) b c x y). reflexivity. Qed.
  Lemma cover_once f items w : once W f items -> (forall s, In (Text f s) items -> (length s <= w)%nat) ->
    exists t, cover f items (repeat 0 (Datatypes.S w)) = last_of W (text_of W f) items [] ++ 0 :: t.
  Proof.
    induction items as [|i items IH]; intros O L; [exists (repeat 0 w); reflexivity|].
    unfold cover, last_of. cbn [fold_left]. destruct (text_of W f i) as [s|] eqn:E.
    - assert (N : forall j, In j items -> text_of W f j = None).
      { intros j I. apply in_split in I as (b & c & ->). destruct (O [] b c i j eq_refl) as [X|X]; [congruence|exact X]. }
      destruct (cover_none f items (s ++ skipn (length s) (repeat 0 (Datatypes.S w))) N) as (A & _). destruct (cover_none f items s N) as (_ & B).
      assert (i = Text f s) as -> by (destruct i as [g u|g u|g u|g u|u|g u v|g u|u|]; try discriminate; destruct g, f; cbn in E; congruence).
      specialize (L s (or_introl eq_refl)). unfold cover in A. unfold last_of in B. rewrite A, B, skipn_zeros by lia.
      replace (Datatypes.S w - length s)%nat with (Datatypes.S (w - length s)) by lia. exists (repeat 0 (w - length s)). reflexivity.
    - apply IH; [eapply once_tail, O|]. intros s I. apply L. right; exact I.
  Qed.
  Lemma skipn_join f pc : sized pc -> exists u, skipn (place f) (join pc) = pc f ++ u.
  Proof.
    intros Z. pose proof (Z Agency) as Z1. pose proof (Z Satellite) as Z2. pose proof (Z Sensor) as Z3. pose proof (Z Level) as Z4. cbn [width] in *. unfold join.
    assert (G : forall (A B : list BinNums.Z) k, length A = k -> skipn k (A ++ B) = B) by (intros A B k <-; rewrite skipn_app, skipn_all, Nat.sub_diag; reflexivity).
    destruct f; cbn [place]; [eexists; reflexivity|..].
    - rewrite (G (pc Agency)) by exact Z1. eexists; reflexivity.
    - rewrite (app_assoc (pc Agency)), G by (rewrite app_length; lia). eexists; reflexivity.
    - rewrite (app_assoc (pc Agency)), (app_assoc (pc Agency ++ _)), G by (rewrite !app_length; lia). eexists; reflexivity.
    - rewrite (app_assoc (pc Agency)), (app_assoc (pc Agency ++ _)), (app_assoc ((pc Agency ++ _) ++ _)), G by (rewrite !app_length; lia). exists []. rewrite app_nil_r. reflexivity.
  Qed.
  Lemma last_text_solid f items pre v : Forall2 says items pre -> Forall (fun c => c <> 0) v -> Forall (fun c => c <> 0) (last_of W (text_of W f) items v).
  Proof.
    intros F. revert v. induction F as [|i l items pre S F IH]; intros v V; [exact V|]. unfold last_of. cbn [fold_left]. apply IH.
    destruct (text_of W f i) as [s|] eqn:E; [|exact V].
    assert (i = Text f s) as -> by (destruct i as [g u|g u|g u|g u|u|g u w|g u|u|]; try discriminate; destruct g, f; cbn in E; congruence).
    destruct S as (lab & _ & b & _ & (_ & _ & _ & Z) & _). exact Z.
  Qed.
  Lemma run_text f items pre h : arena h = repeat 0 80 -> Forall2 says items pre -> texts_within W width items -> once W f items ->
    get_text W f (run items h) = Ok (last_of W (text_of W f) items []).
  Proof.
    intros A F L O. set (pc := fun f => repeat 0 (Datatypes.S (width f))).
    assert (Z : sized pc) by (intros g; apply repeat_length). assert (E : arena h = join pc) by (rewrite A; reflexivity).
    destruct (run_pieces items pc h Z E L) as (Z' & E'). unfold get_text. rewrite E'. destruct (skipn_join f _ Z') as (u & ->).
    destruct (cover_once f items (width f) O (fun s => L f s)) as (t & C). unfold pc. rewrite C, <- app_assoc. cbn [app]. apply c_str_stop.
    apply (last_text_solid f items pre [] F). constructor.
  Qed.
  Lemma within_fits items : texts_within W width items -> Forall fits items.
  Proof.
    intros L. apply Forall_forall. intros i I. destruct i as [f s|f n|f b|f x|t|o ns t|o y|v|]; try exact Logic.I. cbn. specialize (L f s I). destruct f; cbn [width room] in *; lia.
  Qed.
  Lemma room_fits items : texts_within W room items <-> Forall fits items.
  Proof.
    split.
    - intros L. apply Forall_forall. intros i I. destruct i; try exact Logic.I. apply (L f s I).
    - intros F f s I. rewrite Forall_forall in F. exact (F _ I).
  Qed.

  (** ** what is accepted *)
  Lemma choose_In bs line h st : choose bs line h = Ok st -> st <> Go W 1 h -> exists lit f, In (lit, f) bs /\ begins lit line /\ f line h = Ok st.
  Proof.
    induction bs as [|(lit, f) bs IH]; cbn [AodHeadModel.choose]; [intros X N; injection X as <-; congruence|]. destruct (starts lit line) eqn:E.
    - intros X _. exists lit, f. split; [left; reflexivity|]. split; [apply starts_begins, E|exact X].
    - intros X N. destruct (IH X N) as (l & g & I & R). exists l, g. split; [right; exact I|exact R].
  Qed.
  Ltac opn k line := let p := fresh "p" in let D := fresh "D" in destruct (drop k line) as [p| | |] eqn:D; cbn [bind]; try discriminate; apply drop_In in D.
  Lemma text_colon k off line h st : text W k off line h = Ok st -> In 58 line.
  Proof. unfold text. opn k line. destruct (field2 p) as [v| | |] eqn:E; try discriminate. intros _. apply D, (field2_colon _ _ E). Qed.
  Lemma integer_colon k set line h st : integer W k set line h = Ok st -> In 58 line.
  Proof. unfold integer. opn k line. destruct (field1 p) as [v| | |] eqn:E; try discriminate. intros _. apply D, (field1_colon _ _ E). Qed.
  Lemma real_colon k set line h st : real W sdbl k set line h = Ok st -> In 58 line.
  Proof. unfold real. opn k line. destruct (field1 p) as [v| | |] eqn:E; try discriminate. intros _. apply D, (field1_colon _ _ E). Qed.
  Lemma yesno_colon k set line h st : yesno W k set line h = Ok st -> In 58 line.
  Proof. unfold yesno. opn k line. destruct (field2 p) as [v| | |] eqn:E; try discriminate. intros _. apply D, (field2_colon _ _ E). Qed.
  Lemma epoch_colon k line h st : epoch W from_char gps2tt k line h = Ok st -> In 58 line.
  Proof. unfold epoch. opn k line. destruct (field1 p) as [v| | |] eqn:E; try discriminate. intros _. apply D, (field1_colon _ _ E). Qed.
  Lemma observation_colon k set line h st : observation W from_char gps2tt sdbl k set line h = Ok st -> In 58 line.
  Proof. unfold observation. opn k line. destruct (field1 p) as [v| | |] eqn:E; try discriminate. intros _. apply D, (field1_colon _ _ E). Qed.
  Lemma year_colon k set line h st : year W year_start k set line h = Ok st -> In 58 line.
  Proof. unfold year. opn k line. destruct (field1 p) as [v| | |] eqn:E; try discriminate. intros _. apply D, (field1_colon _ _ E). Qed.
  Lemma tide_colon k line h st : tide W find_wave_entry k line h = Ok st -> In 58 line.
  Proof. unfold tide. opn k line. destruct (field2 p) as [v| | |] eqn:E; try discriminate. intros _. apply D, (field2_colon _ _ E). Qed.
  Definition mem (lab : list Z) (L : list (list Z)) : bool := existsb (fun l => if list_eq_dec Z.eq_dec lab l then true else false) L.
  Lemma mem_In lab L : mem lab L = true -> In lab L.
  Proof. intros H. apply existsb_exists in H as (l & I & E). destruct (list_eq_dec Z.eq_dec lab l); [subst; exact I|discriminate]. Qed.
  Definition tame (b : list Z * handler W) : Prop :=
    (mem (fst b) value_labels = true /\ forall line h st, snd b line h = Ok st -> In 58 line) \/ mem (fst b) other_labels = true \/
    fst b = end_label /\ forall line h, snd b line h = Ok (Stop W).
  Ltac val L := left; split; [vm_compute; reflexivity|exact L].
  Ltac oth := right; left; vm_compute; reflexivity.
  Lemma branches_tame : Forall tame branches.
  Proof.
    unfold AodHeadModel.branches.
    repeat (apply Forall_cons; [first [val (text_colon 15 0)|val (text_colon 14 20)|val (text_colon 11 40)|val (text_colon 24 60)|val (text_colon 24 64)|val (text_colon 26 64)
      |val (integer_colon 18 (set_file_type W))|val (integer_colon 28 (set_file_format W))|val (integer_colon 24 (set_num_header_records W))|val (integer_colon 22 (set_num_data_records W))
      |val (integer_colon 14 (set_max_degree W))|val (integer_colon 17 (set_num_data_sets W))|val (yesno_colon 28 (set_coeff_errors W))|val (yesno_colon 26 (set_coeff_normalized W))
      |val (real_colon 21 (set_GM W))|val (real_colon 22 (set_Re W))|val (real_colon 17 (set_flat W))|val (real_colon 17 (set_omega W))|val (epoch_colon 21)
      |val (observation_colon 30 (set_first_epoch W))|val (observation_colon 29 (set_last_epoch W))|val (year_colon 27 (set_first_epoch W))|val (year_colon 24 (set_last_epoch W))|val (tide_colon 12)
      |oth|right; right; split; [reflexivity|reflexivity]]|]). apply Forall_nil.
  Qed.
  Lemma choose_known line h h' : choose branches line h = Ok (Go W 0 h') -> known line.
  Proof.
    intros X. apply choose_In in X as (lit & f & I & B & E); [|discriminate]. pose proof branches_tame as T. rewrite Forall_forall in T. specialize (T _ I). cbn [fst snd] in T.
    destruct T as [(M & C)|[M|(_ & C)]].
    - left. exists lit. split; [apply mem_In, M|]. split; [exact B|eapply C, E].
    - right. exists lit. split; [apply mem_In, M|exact B].
    - rewrite C in E. discriminate.
  Qed.
  Lemma choose_stop line h : choose branches line h = Ok (Stop W) -> begins end_label line.
  Proof.
    assert (G : forall bs, (forall lit f, In (lit, f) bs -> lit = end_label \/ forall line h, f line h <> Ok (Stop W)) -> choose bs line h = Ok (Stop W) -> begins end_label line).
    { intros bs H X. apply choose_In in X as (lit & f & I & B & E); [|discriminate]. destruct (H lit f I) as [->|N]; [exact B|destruct (N _ _ E)]. }
    apply (G branches). clear G line h. intros lit f I. cbn [AodHeadModel.branches In] in I.
    assert (NT : forall k off line h, text W k off line h <> Ok (Stop W)).
    { intros k off line h. unfold text. destruct (drop k line) as [a| | |]; cbn [bind]; try discriminate. destruct (field2 a) as [(r, sz)| | |]; cbn [bind]; try discriminate. destruct (sz <? 0); [discriminate|].
      destruct (write_at _ _ _); cbn [bind]; discriminate. }
    assert (NI : forall k set line h, integer W k set line h <> Ok (Stop W)).
    { intros k set line h. unfold integer. destruct (drop k line) as [a| | |]; cbn [bind]; try discriminate. destruct (field1 a); cbn [bind]; try discriminate. destruct (scan_i32 _) as ([v|], u); discriminate. }
    assert (NR : forall k set line h, real W sdbl k set line h <> Ok (Stop W)).
    { intros k set line h. unfold real. destruct (drop k line) as [a| | |]; cbn [bind]; try discriminate. destruct (field1 a); cbn [bind]; try discriminate. destruct (sdbl _) as ([v|], u); discriminate. }
    assert (NY : forall k set line h, yesno W k set line h <> Ok (Stop W)).
    { intros k set line h. unfold yesno. destruct (drop k line) as [a| | |]; cbn [bind]; try discriminate. destruct (field2 a) as [(r, sz)| | |]; cbn [bind]; try discriminate.
      destruct (sz =? 2); [destruct (starts _ _); discriminate|]. destruct (sz =? 3); [destruct (starts _ _); discriminate|discriminate]. }
    assert (NE : forall k line h, epoch W from_char gps2tt k line h <> Ok (Stop W)).
    { intros k line h. unfold epoch. destruct (drop k line) as [a| | |]; cbn [bind]; try discriminate. destruct (field1 a); cbn [bind]; try discriminate. destruct (from_char _); discriminate. }
    assert (NO : forall k set line h, observation W from_char gps2tt sdbl k set line h <> Ok (Stop W)).
    { intros k set line h. unfold observation. destruct (drop k line) as [a| | |]; cbn [bind]; try discriminate. destruct (field1 a); cbn [bind]; try discriminate. destruct (sdbl _) as ([v|], u); [|discriminate].
      destruct (to_ns v); cbn [bind]; try discriminate. destruct (to_digit u); cbn [bind]; try discriminate. destruct (from_char _); [|discriminate]. destruct (_ =? _); discriminate. }
    assert (NA : forall k set line h, year W year_start k set line h <> Ok (Stop W)).
    { intros k set line h. unfold year. destruct (drop k line) as [a| | |]; cbn [bind]; try discriminate. destruct (field1 a); cbn [bind]; try discriminate. destruct (scan_i32 _) as ([v|], u); discriminate. }
    assert (NW : forall k line h, tide W find_wave_entry k line h <> Ok (Stop W)).
    { intros k line h. unfold tide. destruct (drop k line) as [a| | |]; cbn [bind]; try discriminate. destruct (field2 a) as [(r, sz)| | |]; cbn [bind]; try discriminate. destruct (_ || _); [discriminate|]. destruct (find_wave_entry _); discriminate. }
    assert (NG : forall line h, ignore W line h <> Ok (Stop W)) by discriminate.
    repeat match type of I with
    | _ \/ _ => destruct I as [I|I]; [injection I as <- <-; first [right; first [exact NG|apply NE|apply NT|apply NI|apply NR|apply NY|apply NO|apply NA|apply NW]|left; reflexivity]|]
    end. destruct I.
  Qed.
  Lemma read_sound n : forall s h h', read_loop n s h = Ok (0, h') -> exists pre e rest, ilines s = pre ++ e :: rest /\ (length pre < n)%nat /\
    begins end_label e /\ Forall known pre /\ Forall short (pre ++ [e]) /\ (rest <> [] \/ iterm s = true).
  Proof.
    induction n as [|n IH]; intros s h h'; cbn [AodHeadModel.read_loop].
    - destruct (igetline MAXL s) as (l, s1). destruct (ifail s1); discriminate.
    - destruct (igetline MAXL s) as (l, s1) eqn:G. destruct (ifail s1) eqn:F; [discriminate|]. 
      assert (H : ilines s = l :: ilines s1 /\ short l /\ iterm s1 = iterm s /\ (good s1 = true -> ilines s1 <> [] \/ iterm s = true)).
      { unfold igetline in G. destruct (negb (good s)); [injection G as <- <-; discriminate|]. destruct (ilines s) as [|x rest]; [injection G as <- <-; discriminate|].
        destruct (Z.leb_spec MAXL (Z.of_nat (length x))) as [L|L]; [injection G as <- <-; discriminate|]. injection G as <- <-. cbn. refine (conj eq_refl (conj _ (conj eq_refl _))).
        - unfold short, MAXL in *. lia.
        - unfold good. cbn. destruct rest; [|left; discriminate]. destruct (iterm s); [right; reflexivity|discriminate]. }
      destruct H as (E & SH & TE & GD). destruct (choose branches l h) as [st| | |] eqn:C; cbn [bind]; try discriminate. destruct st as [er h1|h1|].
      + destruct (Z.eqb_spec er 0) as [->|N]; [|discriminate]. intros X. apply IH in X as (pre & e & rest & A & L & B & K & S & R).
        exists (l :: pre), e, rest. rewrite E, A, <- TE. split; [reflexivity|]. split; [cbn; lia|]. split; [exact B|]. split; [constructor; [eapply choose_known, C|exact K]|].
        split; [constructor; assumption|exact R].
      + discriminate.
      + intros X. assert (GS : good s1 = true) by (destruct (good s1); [reflexivity|discriminate]). exists [], l, (ilines s1). rewrite E. cbn [app length]. split; [reflexivity|]. split; [lia|].
        split; [eapply choose_stop, C|]. split; [constructor|]. split; [constructor; [exact SH|constructor]|apply GD, GS].
  Qed.
  Lemma read_code n : forall s h e h', read_loop n s h = Ok (e, h') -> e = 0 \/ e = 1.
  Proof.
    induction n as [|n IH]; intros s h e h'; cbn [AodHeadModel.read_loop]; destruct (igetline MAXL s) as (l, s1); destruct (ifail s1); try (intros X; injection X as <- <-; auto; fail).
    destruct (choose branches l h) as [st| | |]; cbn [bind]; try discriminate. destruct st as [er h1|h1|].
    - destruct (er =? 0); [apply IH|]. intros X; injection X as <- <-; auto.
    - intros X; injection X as <- <-; auto.
    - intros X; injection X as <- <-. destruct (good s1); auto.
  Qed.

  Hypothesis sdbl_word : word_scanner sdbl.
  Lemma read_prefix items : forall pre n h tl term, Forall2 says items pre -> Forall short pre -> Forall fits items -> length (arena h) = 80%nat -> consistent (time_epoch W h) items ->
    read_loop (length pre + n) (pos (pre ++ tl) term) h = read_loop n (pos tl term) (run items h).
  Proof.
    induction items as [|i items IH]; intros pre n h tl term F S FI A C; inversion F; subst; clear F; [reflexivity|].
    cbn [app length Nat.add AodHeadModel.read_loop]. apply Forall_cons_iff in S as (S1 & S). rewrite (igetline_short _ (l' ++ tl) term _ eq_refl S1). cbn [ifail pos].
    apply Forall_cons_iff in FI as (F1 & FI). apply consistent_cons in C as (C1 & C).
    rewrite (step_ok W find_wave_entry from_char gps2tt year_start sdbl sdbl_word i _ h) by (try assumption; destruct i; assumption). cbn [bind Z.eqb].
    change (run (i :: items) h) with (run items (apply i h)). apply IH; try assumption; [apply apply_arena; assumption|]. rewrite apply_epoch. exact C.
  Qed.
  (** a line that goes wrong *)
  Lemma read_fault items pre bad tl term h (r : res (step W)) : Forall2 says items pre -> Forall short (pre ++ [bad]) -> (length pre < 99)%nat -> Forall fits items -> length (arena h) = 80%nat ->
    consistent (time_epoch W h) items -> choose branches bad (run items h) = r ->
    read_header (pre ++ bad :: tl) term h = (x <- r ;; match x with Go _ e h' => if e =? 0 then read_loop (98 - length pre) (pos tl term) h' else Ok (1, h') | Ret _ h' => Ok (1, h')
      | Stop _ => Ok (if match tl with [] => term | _ => true end then 0 else 1, run items h) end).
  Proof.
    intros F S L FI A C E. unfold AodHeadModel.read_header. rewrite seek0_pos; [|reflexivity|destruct pre; discriminate]. apply Forall_app in S as (S & S1). apply Forall_cons_iff in S1 as (S1 & _).
    replace 99%nat with (length pre + Datatypes.S (98 - length pre))%nat by lia. rewrite (read_prefix items) by assumption. cbn [AodHeadModel.read_loop].
    rewrite (igetline_short _ tl term _ eq_refl S1). cbn [ifail pos]. rewrite E. destruct r as [[e h'|h'|]| | |]; cbn [bind]; try reflexivity. rewrite good_pos. reflexivity.
  Qed.

  (** faulty lines *)
  Notation branch := (branch W find_wave_entry from_char gps2tt year_start sdbl).
  Lemma no_colon_fault lab r h : In lab value_labels -> no_colon r -> choose branches (lab ++ r) h = UB.
  Proof.
    intros I N. 
    assert (P : forall k l, no_colon l -> forall A (f : list Z -> res A), (forall p, no_colon p -> f p = UB) -> (p <- drop k l ;; f p) = UB).
    { intros k l NL A f H. unfold drop. destruct (k <=? length l)%nat; [|reflexivity]. cbn [bind]. apply H, no_colon_skipn, NL. }
    assert (P1 : forall A (f : list Z -> res A) p, no_colon p -> (v <- field1 p ;; f v) = UB) by (intros A f p NP; rewrite (field1_none p NP); reflexivity).
    assert (P2 : forall A (f : list Z * Z -> res A) p, no_colon p -> (v <- field2 p ;; f v) = UB) by (intros A f p NP; rewrite (field2_none p NP); reflexivity).
    assert (NL : no_colon (lab ++ r)).
    { apply no_colon_app. split; [|exact N]. cbn in I. repeat (destruct I as [<-|I]; [repeat (apply Forall_cons; [discriminate|]); apply Forall_nil|]). destruct I. }
    assert (G : exists k g, choose branches (lab ++ r) h = (p <- drop k (lab ++ r) ;; g p) /\ forall p, no_colon p -> g p = UB).
    { clear N NL. cbn [value_labels] in I.
      repeat match type of I with
      | _ \/ _ => destruct I as [<-|I]; [eexists _, _; split; [reflexivity|]; intros p NP; first [apply (P1 _ _ p NP)|apply (P2 _ _ p NP)]|]
      | In _ _ => cbn [value_labels concat map text_labels app In] in I
      end. destruct I. }
    destruct G as (k & g & -> & H). apply (P k _ NL _ g H).
  Qed.
  Lemma blank_fault f lab fill b h : In lab (text_labels f) -> blanks b -> b <> [] -> choose branches (lab ++ fill ++ 58 :: b) h = UB.
  Proof.
    intros I B N.
    assert (P : forall k off, (k <= length lab)%nat -> text W k off (lab ++ fill ++ 58 :: b) h = UB).
    { intros k off L. unfold text. rewrite drop_prefix by exact L. cbn [bind]. unfold field2. rewrite app_assoc, (after_last_ok _ b (blanks_no_colon b B)).
      rewrite <- (app_nil_r b), (skip_blanks_app b [] B), app_nil_r. cbn [skip_blanks bind length].
      replace ((skipn k lab ++ fill) ++ 58 :: b) with ((skipn k lab ++ fill) ++ [58] ++ b) by reflexivity. rewrite trailing_ok; [|exists 58, []; split; [reflexivity|discriminate]|exact B].
      destruct b; [congruence|]. cbn [length]. replace (Z.of_nat 0 - Z.of_nat (Datatypes.S (length b)) <? 0) with true by (symmetry; apply Z.ltb_lt; lia). reflexivity. }
    destruct f; cbn [text_labels In] in I.
    1: destruct I as [<-|[]]; apply (P 15%nat 0%nat); cbn; lia.
    1: destruct I as [<-|[]]; apply (P 14%nat 20%nat); cbn; lia.
    1: destruct I as [<-|[]]; apply (P 11%nat 40%nat); cbn; lia.
    1: destruct I as [<-|[]]; apply (P 24%nat 60%nat); cbn; lia.
    destruct I as [<-|[<-|[]]]; [apply (P 24%nat 64%nat); cbn; lia|apply (P 26%nat 64%nat); cbn; lia].
  Qed.
  Lemma long_fault f s line h : says (Text f s) line -> length (arena h) = 80%nat -> (room f < length s)%nat -> choose branches line h = UB.
  Proof.
    intros (lab & I & T) A R.
    assert (P : forall k off, (k <= length lab)%nat -> (80 < off + length s)%nat -> text W k off line h = UB).
    { intros k off L F. destruct (text_field k lab line s L T) as (p & b & E1 & E2). unfold text. rewrite E1. cbn [bind]. rewrite E2. cbn [bind].
      destruct (Z.ltb_spec (Z.of_nat (length s)) 0); [lia|]. rewrite Nat2Z.id, firstn_app, firstn_all, Nat.sub_diag, firstn_O, app_nil_r.
      unfold write_at. replace (off + length s <=? length (arena h))%nat with false by (symmetry; apply Nat.leb_gt; lia). reflexivity. }
    destruct (says_text_begins _ _ _ T) as (r & E). 
    destruct f; cbn [text_labels In room] in *.
    1: destruct I as [<-|[]]; rewrite E; change (text W 15 0 (chars "PRODUCER AGENCY" ++ r) h = UB); rewrite <- E; apply P; [cbn; lia|lia].
    1: destruct I as [<-|[]]; rewrite E; change (text W 14 20 (chars "SATELLITE NAME" ++ r) h = UB); rewrite <- E; apply P; [cbn; lia|lia].
    1: destruct I as [<-|[]]; rewrite E; change (text W 11 40 (chars "SENSOR NAME" ++ r) h = UB); rewrite <- E; apply P; [cbn; lia|lia].
    1: destruct I as [<-|[]]; rewrite E; change (text W 24 60 (chars "PROCESS LEVEL (1A OR 1B)" ++ r) h = UB); rewrite <- E; apply P; [cbn; lia|lia].
    destruct I as [<-|[<-|[]]]; rewrite E; [change (text W 24 64 (chars "PRESSURE TYPE (SP OR VI)" ++ r) h = UB)|change (text W 26 64 (chars "PRESSURE TYPE (ATM OR OCN)" ++ r) h = UB)]; rewrite <- E; apply P; (cbn; lia) || lia.
  Qed.
  Lemma radius_fault fill v h : no_colon v -> (length fill < 8)%nat -> choose branches (real_label Radius ++ fill ++ 58 :: v) h = UB.
  Proof.
    intros N L. change (real W sdbl 22 (set_Re W) (chars "CONSTANT A [M]" ++ fill ++ 58 :: v) h = UB). unfold real, drop.
    destruct (22 <=? _)%nat; [|reflexivity]. cbn [bind]. rewrite field1_none; [reflexivity|].
    replace (chars "CONSTANT A [M]" ++ fill ++ 58 :: v) with ((chars "CONSTANT A [M]" ++ fill ++ [58]) ++ v) by (rewrite <- !app_assoc; reflexivity).
    rewrite skipn_app, skipn_all2 by (rewrite !app_length; cbn; lia). cbn [app]. apply no_colon_skipn, N.
  Qed.
  Lemma tide_fault line s h : says_text tide_label line s -> (7 < length s)%nat \/ find_wave_entry s = None -> choose branches line h = UB.
  Proof.
    intros T D. destruct (says_text_begins _ _ _ T) as (r & E). rewrite E. change (tide W find_wave_entry 12 (tide_label ++ r) h = UB). rewrite <- E.
    destruct (text_field 12 tide_label line s ltac:(cbn; lia) T) as (p & b & E1 & E2). unfold tide. rewrite E1. cbn [bind]. rewrite E2. cbn [bind].
    destruct (Z.ltb_spec (Z.of_nat (length s)) 0); [lia|]. destruct (Z.ltb_spec 7 (Z.of_nat (length s))); [reflexivity|]. cbn [orb].
    rewrite Nat2Z.id, firstn_app, firstn_all, Nat.sub_diag, firstn_O, app_nil_r. destruct D as [D|D]; [lia|]. rewrite D. reflexivity.
  Qed.
  Lemma obs_line o line r h : line = obs_label o ++ r -> exists k set, choose branches line h = observation W from_char gps2tt sdbl k set line h /\ (k <= length (obs_label o))%nat.
  Proof. intros ->. destruct o; [exists 30%nat, (set_first_epoch W)|exists 29%nat, (set_last_epoch W)]; split; try reflexivity; cbn; lia. Qed.
  Lemma obs_no_colon o : no_colon (obs_label o).
  Proof. destruct o; repeat (apply Forall_cons; [discriminate|]); apply Forall_nil. Qed.
  Lemma obs_number_fault o line v u h : labelled (obs_label o) line v -> unblank v -> sdbl v = (None, u) -> choose branches line h = UB.
  Proof.
    intros T U E. destruct (labelled_begins _ _ _ T) as (r & R). destruct (obs_line o line r h R) as (k & set & -> & L).
    destruct (labelled_field k _ line v (obs_no_colon o) L T U) as (p & E1 & E2). unfold observation. rewrite E1. cbn [bind]. rewrite E2. cbn [bind]. rewrite E. reflexivity.
  Qed.
  Lemma obs_date_fault o line w x g h : labelled (obs_label o) line (w ++ g) -> word w -> sdbl w = (Some x, []) -> at_blank g -> Forall (fun c => ~ digit_char c) g ->
    choose branches line h = UB.
  Proof.
    intros T WW E A F. destruct (labelled_begins _ _ _ T) as (r & R). destruct (obs_line o line r h R) as (k & set & -> & L).
    destruct (labelled_field k _ line _ (obs_no_colon o) L T (solid_unblank _ _ (word_solid _ WW))) as (p & E1 & E2). unfold observation. rewrite E1. cbn [bind]. rewrite E2. cbn [bind].
    rewrite (sdbl_word w x E g A). destruct (to_ns x) eqn:TN; cbn [bind]; try reflexivity; try (unfold to_ns in TN; destruct (_ && _); discriminate TN). rewrite (to_digit_none g F). reflexivity.
  Qed.
  Lemma epoch_fault line d h : labelled epoch_label line d -> solid d -> from_char d = None -> choose branches line h = Abort.
  Proof.
    intros T S E. destruct (labelled_begins _ _ _ T) as (r & R). rewrite R. change (epoch W from_char gps2tt 21 (epoch_label ++ r) h = Abort). rewrite <- R.
    destruct (labelled_field 21 epoch_label line d) as (p & E1 & E2); [repeat (apply Forall_cons; [discriminate|]); apply Forall_nil|cbn; lia|exact T|rewrite <- (app_nil_r d); apply solid_unblank, S|].
    unfold epoch. rewrite E1. cbn [bind]. rewrite E2. cbn [bind]. rewrite E. reflexivity.
  Qed.
  Lemma flag_line f line s h : says_text (flag_label f) line s -> exists p b k set, choose branches line h = yesno W k set line h /\ drop k line = Ok p /\ field2 p = Ok (s ++ b, Z.of_nat (length s)).
  Proof.
    intros T. destruct (says_text_begins _ _ _ T) as (r & R). destruct f.
    - destruct (text_field 28 (flag_label Errors) line s ltac:(cbn; lia) T) as (p & b & E1 & E2). exists p, b, 28%nat, (set_coeff_errors W). split; [rewrite R; reflexivity|split; assumption].
    - destruct (text_field 26 (flag_label Normalized) line s ltac:(cbn; lia) T) as (p & b & E1 & E2). exists p, b, 26%nat, (set_coeff_normalized W). split; [rewrite R; reflexivity|split; assumption].
  Qed.
  Lemma starts_same a s b : length a = length s -> starts a (s ++ b) = true -> a = s.
  Proof.
    intros L H. apply starts_begins in H as (r & E). revert s L E; induction a as [|x a IH]; intros [|y s] L E; try discriminate; [reflexivity|]. cbn in *. injection E as -> E. f_equal. apply (IH s); [lia|exact E].
  Qed.
  Lemma flag_abort f line s h : says_text (flag_label f) line s -> length s = 2%nat \/ length s = 3%nat -> s <> chars "YES" -> s <> chars "NO" -> choose branches line h = Abort.
  Proof.
    intros T D N1 N2. destruct (flag_line f line s h T) as (p & b & k & set & -> & E1 & E2). unfold yesno. rewrite E1. cbn [bind]. rewrite E2. cbn [bind].
    destruct D as [D|D]; rewrite D; cbn [Z.of_nat Pos.of_succ_nat Pos.succ Z.eqb Pos.eqb].
    - destruct (starts (chars "NO") (s ++ b)) eqn:E; [|reflexivity]. apply starts_same in E; [congruence|exact (eq_sym D)].
    - destruct (starts (chars "YES") (s ++ b)) eqn:E; [|reflexivity]. apply starts_same in E; [congruence|exact (eq_sym D)].
  Qed.
  Lemma flag_refuse f line s h : says_text (flag_label f) line s -> length s <> 2%nat -> length s <> 3%nat -> choose branches line h = Ok (Go W 1 h).
  Proof.
    intros T N2 N3. destruct (flag_line f line s h T) as (p & b & k & set & -> & E1 & E2). unfold yesno. rewrite E1. cbn [bind]. rewrite E2. cbn [bind].
    destruct (Z.eqb_spec (Z.of_nat (length s)) 2); [lia|]. destruct (Z.eqb_spec (Z.of_nat (length s)) 3); [lia|]. reflexivity.
  Qed.
  Lemma num_refuse f line v u h : labelled (num_label f) line v -> unblank v -> scan_i32 v = (None, u) -> choose branches line h = Ok (Go W 1 h).
  Proof.
    intros T U E. destruct (labelled_begins _ _ _ T) as (r & R).
    assert (G : exists k set, choose branches line h = integer W k set line h /\ (k <= length (num_label f))%nat).
    { rewrite R. destruct f; [exists 18%nat, (set_file_type W)|exists 28%nat, (set_file_format W)|exists 24%nat, (set_num_header_records W)|exists 22%nat, (set_num_data_records W)|exists 14%nat, (set_max_degree W)|exists 17%nat, (set_num_data_sets W)]; split; try reflexivity; cbn; lia. }
    destruct G as (k & set & -> & L). destruct (labelled_field k (num_label f) line v) as (p & E1 & E2); [destruct f; repeat (apply Forall_cons; [discriminate|]); apply Forall_nil|exact L|exact T|exact U|].
    unfold integer. rewrite E1. cbn [bind]. rewrite E2. cbn [bind]. rewrite E. reflexivity.
  Qed.
  Lemma year_fault o line v u h : labelled (year_label o) line v -> unblank v -> scan_i32 v = (None, u) -> choose branches line h = UB.
  Proof.
    intros T U E. destruct (labelled_begins _ _ _ T) as (r & R).
    assert (G : exists k set, choose branches line h = year W year_start k set line h /\ (k <= length (year_label o))%nat).
    { rewrite R. destruct o; [exists 27%nat, (set_first_epoch W)|exists 24%nat, (set_last_epoch W)]; split; try reflexivity; cbn; lia. }
    destruct G as (k & set & -> & L). destruct (labelled_field k (year_label o) line v) as (p & E1 & E2); [destruct o; repeat (apply Forall_cons; [discriminate|]); apply Forall_nil|exact L|exact T|exact U|].
    unfold year. rewrite E1. cbn [bind]. rewrite E2. cbn [bind]. rewrite E. reflexivity.
  Qed.
  Lemma unknown_refuse line h : (forall lab, In lab (end_label :: value_labels ++ other_labels) -> ~ begins lab line) -> choose branches line h = Ok (Go W 1 h).
  Proof.
    intros N. assert (G : forall bs, (forall lit f, In (lit, f) bs -> ~ begins lit line) -> choose bs line h = Ok (Go W 1 h)).
    { induction bs as [|(lit, f) bs IH]; intros H; [reflexivity|]. cbn [AodHeadModel.choose]. replace (starts lit line) with false; [apply IH; intros l g I; apply (H l g); right; exact I|].
      symmetry. apply starts_false, (H lit f). left; reflexivity. }
    apply G. intros lit f I. apply N. pose proof branches_tame as T. rewrite Forall_forall in T. specialize (T _ I). unfold tame in T. cbn [fst snd] in T.
    destruct T as [(M & _)|[M|(M & _)]]; [right; apply in_or_app; left; apply mem_In, M|right; apply in_or_app; right; apply mem_In, M|left; exact (eq_sym M)].
  Qed.

  (** ** objects *)
  Lemma copy_members_same a b : length (arena a) = 80%nat -> length (arena b) = 80%nat -> copy_members W a b = b.
  Proof.
    intros A B. unfold copy_members. rewrite firstn_all2 by lia. rewrite skipn_all2 by lia. rewrite app_nil_r. destruct b; reflexivity.
  Qed.

  (** ** whole files *)
  Notation opening := (opening W find_wave_entry from_char gps2tt sdbl).
  Lemma opening_arena h pre items : opening h pre items -> length (arena (run items h)) = 80%nat.
  Proof.
    intros (_ & _ & _ & R & A & _). apply room_fits in R. revert h A. induction R as [|i items F R IH]; intros h A; [exact A|].
    change (run (i :: items) h) with (run items (apply i h)). apply IH, apply_arena; assumption.
  Qed.
  Lemma bad_line h pre items bad tl term (r : res (step W)) : opening h pre items -> short bad -> choose branches bad (run items h) = r ->
    match r with Ok (Go _ e h') => e <> 0 -> read_header (pre ++ bad :: tl) term h = Ok (1, h')
    | Ok (Ret _ h') => read_header (pre ++ bad :: tl) term h = Ok (1, h')
    | Ok (Stop _) => read_header (pre ++ bad :: tl) term h = Ok (if match tl with [] => term | _ => true end then 0 else 1, run items h)
    | UB => read_header (pre ++ bad :: tl) term h = UB | Abort => read_header (pre ++ bad :: tl) term h = Abort | Illegal => True end.
  Proof.
    intros (F & S & L & R & A & C) SB E. apply room_fits in R.
    assert (SS : Forall short (pre ++ [bad])) by (apply Forall_app; split; [exact S|constructor; [exact SB|constructor]]).
    rewrite (read_fault items pre bad tl term h r F SS L R A C E). destruct r as [[e h'|h'|]| | |]; cbn [bind]; try reflexivity; try exact Logic.I.
    intros N. destruct (Z.eqb_spec e 0); [congruence|reflexivity].
  Qed.
  Lemma header_ok hl items h rest term : header hl items -> texts_within W room items -> length (arena h) = 80%nat -> consistent (time_epoch W h) items ->
    read_header (hl ++ rest) term h = Ok (if match rest with [] => term | _ => true end then 0 else 1, run items h).
  Proof.
    intros (pre & e & -> & F & B & S & L) R A C. rewrite <- app_assoc. apply Forall_app in S as (S & S1). apply Forall_cons_iff in S1 as (S1 & _).
    exact (bad_line h pre items e rest term (Ok (Stop W)) (conj F (conj S (conj L (conj R (conj A C))))) S1 (step_end _ _ _ _ _ _ e _ B)).
  Qed.
  Lemma no_end h pre items term : opening h pre items -> pre <> [] -> read_header pre term h = Ok (1, run items h).
  Proof.
    intros (F & S & L & R & A & C) N. apply room_fits in R. unfold AodHeadModel.read_header. rewrite seek0_pos; [|reflexivity|exact N].
    replace 99%nat with (length pre + Datatypes.S (98 - length pre))%nat by lia. replace (pos pre term) with (pos (pre ++ []) term) by (rewrite app_nil_r; reflexivity). rewrite (read_prefix items) by assumption. cbn [AodHeadModel.read_loop].
    destruct (igetline_end term _ eq_refl) as (l & ->). reflexivity.
  Qed.
  Lemma empty_file term h : read_header [] term h = Ok (1, h).
  Proof. reflexivity. Qed.
  Lemma header_sound file term h h' : read_header file term h = Ok (0, h') -> exists pre e rest, file = pre ++ e :: rest /\ (length pre < 99)%nat /\
    begins end_label e /\ Forall known pre /\ Forall short (pre ++ [e]) /\ (rest <> [] \/ term = true).
  Proof. intros H. apply read_sound in H. exact H. Qed.
  Lemma bare_header e rest h : begins end_label e -> short e -> read_header (e :: rest) true h = Ok (0, h).
  Proof.
    intros B S. unfold AodHeadModel.read_header. rewrite seek0_pos; [|reflexivity|discriminate]. cbn [AodHeadModel.read_loop]. rewrite (igetline_short e rest true _ eq_refl S). cbn [ifail pos].
    rewrite (step_end W find_wave_entry from_char gps2tt year_start sdbl e h B). cbn [bind]. rewrite good_pos. destruct rest; reflexivity.
  Qed.
  Lemma zeros_app n m : repeat 0 (n + m) = repeat 0 n ++ repeat 0 m.
  Proof. apply repeat_app. Qed.
  (** an agency too long for its place *)
  Lemma long_agency line s e rest h : says (Text Agency s) line -> short line -> begins end_label e -> short e -> (20 < length s < 80)%nat -> arena h = repeat 0 80 ->
    exists h', read_header (line :: e :: rest) true h = Ok (0, h') /\ get_text W Satellite h' = Ok (skipn 20 s).
  Proof.
    intros S SL B SE L A.
    pose proof (header_ok [line; e] [Text Agency s] h rest true) as H. cbn [app] in H. rewrite H; clear H.
    - eexists. split; [destruct rest; reflexivity|]. unfold get_text, AodHeadProofs.run. cbn [fold_left AodHeadProofs.apply charArena set_arena place]. rewrite A. unfold put_text. cbn [firstn app Nat.add].
      rewrite skipn_zeros by lia. rewrite skipn_app. replace (20 - length s)%nat with 0%nat by lia. rewrite skipn_O.
      replace (80 - length s)%nat with (Datatypes.S (79 - length s)) by lia. cbn [repeat]. apply c_str_stop.
      destruct S as (lab & _ & b & _ & (_ & _ & _ & Z) & _). rewrite <- (firstn_skipn 20 s) in Z. apply Forall_app in Z. apply Z.
    - exists [line], e. refine (conj eq_refl (conj _ (conj B (conj _ _)))); [constructor; [exact S|constructor]|repeat (apply Forall_cons; [assumption|]); apply Forall_nil|cbn; lia].
    - intros f u [I|[]]. injection I as <- <-. cbn. lia.
    - rewrite A. apply repeat_length.
    - exact Logic.I.
  Qed.
  Lemma twice_agency l1 l2 s1 s2 e rest h : says (Text Agency s1) l1 -> says (Text Agency s2) l2 -> short l1 -> short l2 -> begins end_label e -> short e ->
    (length s2 < length s1 <= 19)%nat -> arena h = repeat 0 80 ->
    exists h', read_header (l1 :: l2 :: e :: rest) true h = Ok (0, h') /\ get_text W Agency h' = Ok (s2 ++ skipn (length s2) s1).
  Proof.
    intros S1 S2 SL1 SL2 B SE L A.
    pose proof (header_ok [l1; l2; e] [Text Agency s1; Text Agency s2] h rest true) as H. cbn [app] in H. rewrite H; clear H.
    - eexists. split; [destruct rest; reflexivity|]. unfold get_text, AodHeadProofs.run. cbn [fold_left AodHeadProofs.apply charArena set_arena place]. rewrite A. unfold put_text. cbn [firstn app Nat.add].
      rewrite skipn_zeros by lia. rewrite skipn_O, skipn_app. replace (length s2 - length s1)%nat with 0%nat by lia. rewrite skipn_O.
      replace (80 - length s1)%nat with (Datatypes.S (79 - length s1)) by lia. cbn [repeat]. rewrite app_assoc. apply c_str_stop.
      destruct S1 as (lab & _ & b & _ & (_ & _ & _ & Z) & _). destruct S2 as (lab' & _ & b' & _ & (_ & _ & _ & Z') & _). apply Forall_app. split; [exact Z'|]. rewrite <- (firstn_skipn (length s2) s1) in Z. apply Forall_app in Z. apply Z.
    - exists [l1; l2], e. refine (conj eq_refl (conj _ (conj B (conj _ _)))); [constructor; [exact S1|constructor; [exact S2|constructor]]|repeat (apply Forall_cons; [assumption|]); apply Forall_nil|cbn; lia].
    - intros f u [I|[I|[]]]; injection I as <- <-; cbn; lia.
    - rewrite A. apply repeat_length.
    - exact Logic.I.
  Qed.
End Head.
