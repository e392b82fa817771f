(** Specification of the header of AOD1B files. *)
From Coq Require Import Ascii String Reals ZArith List Bool.
From Verif Require Import Base CString FromChars AodBlockModel AodBlockSpec AodHeadModel.
Import ListNotations.
Open Scope Z_scope.

(** ** what a header line says *)
Inductive tfield := Agency | Satellite | Sensor | Level | Pressure.
Inductive nfield := FileType | FileFormat | HeaderRecords | DataRecords | MaxDegree | DataSets.
Inductive ffield := Errors | Normalized.
Inductive rfield := GM | Radius | Flattening | Rotation.
Inductive which := First | Last.
Inductive item (W : Type) :=
| Text (f : tfield) (s : list Z) | Num (f : nfield) (n : Z) | Flag (f : ffield) (b : bool) | Real (f : rfield) (x : R)
| Epoch (t : Z) | Obs (w : which) (ns t : Z) | YearOf (w : which) (y : Z) | Tide (v : W) | Other.
Arguments Text {W}. Arguments Num {W}. Arguments Flag {W}. Arguments Real {W}. Arguments Epoch {W}. Arguments Obs {W}.
Arguments YearOf {W}. Arguments Tide {W}. Arguments Other {W}.

(** labels of the product description *)
Definition text_labels (f : tfield) : list (list Z) :=
  match f with
  | Agency => [chars "PRODUCER AGENCY"] | Satellite => [chars "SATELLITE NAME"] | Sensor => [chars "SENSOR NAME"]
  | Level => [chars "PROCESS LEVEL (1A OR 1B)"]
  | Pressure => [chars "PRESSURE TYPE (SP OR VI)"; chars "PRESSURE TYPE (ATM OR OCN)"]
  end.
Definition num_label (f : nfield) : list Z :=
  match f with
  | FileType => chars "FILE TYPE ipAOD1BF" | FileFormat => chars "FILE FORMAT 0=BINARY 1=ASCII"
  | HeaderRecords => chars "NUMBER OF HEADER RECORDS" | DataRecords => chars "NUMBER OF DATA RECORDS"
  | MaxDegree => chars "MAXIMUM DEGREE" | DataSets => chars "NUMBER OF DATA SETS"
  end.
Definition flag_label (f : ffield) : list Z :=
  match f with Errors => chars "COEFFICIENTS ERRORS (YES/NO)" | Normalized => chars "COEFF. NORMALIZED (YES/NO)" end.
Definition real_label (f : rfield) : list Z :=
  match f with
  | GM => chars "CONSTANT GM [M^3/S^2]" | Radius => chars "CONSTANT A [M]" | Flattening => chars "CONSTANT FLAT [-]"
  | Rotation => chars "CONSTANT OMEGA [RAD/S]"
  end.
Definition epoch_label : list Z := chars "TIME EPOCH (GPS TIME)".
Definition obs_label (w : which) : list Z :=
  match w with First => chars "TIME FIRST OBS(SEC PAST EPOCH)" | Last => chars "TIME LAST OBS(SEC PAST EPOCH)" end.
Definition year_label (w : which) : list Z :=
  match w with First => chars "TIME FIRST OBS (YEAR START)" | Last => chars "TIME LAST OBS (YEAR END)" end.
Definition tide_label : list Z := chars "PARTIAL TIDE".
Definition end_label : list Z := chars "END OF HEADER".
Definition other_labels : list (list Z) :=
  [chars "PRODUCER INSTITUTION"; chars "SOFTWARE VERSION"; chars "SOFTWARE LINK TIME"; chars "REFERENCE DOCUMENTATION";
   chars "PRODUCT START CREATE TIME(UTC)"; chars "PRODUCT END CREATE TIME(UTC)"; chars "FILESIZE (BYTES)"; chars "FILENAME"; chars "DATA FORMAT (N,M,C,S)"].
(** labels of lines with a value *)
Definition value_labels : list (list Z) :=
  concat (map text_labels [Agency; Satellite; Sensor; Level; Pressure]) ++ map num_label [FileType; FileFormat; HeaderRecords; DataRecords; MaxDegree; DataSets] ++
  map flag_label [Errors; Normalized] ++ map real_label [GM; Radius; Flattening; Rotation] ++ [epoch_label] ++ map obs_label [First; Last] ++
  map year_label [First; Last] ++ [tide_label].

Definition no_colon (s : list Z) : Prop := Forall (fun c => c <> 58) s.
(** column of the first character behind which the ':' of the line must come: past the label, and for the radius
    not before column 22 *)
Definition colon_from (f : rfield) : nat := match f with Radius => 22 | _ => 0 end.
(** label, filling, colon, value *)
Definition labelled (lab : list Z) (line v : list Z) : Prop := exists fill b,
  line = lab ++ fill ++ 58 :: b ++ v /\ no_colon fill /\ blanks b.
(** text without blanks around it *)
Definition trimmed (s : list Z) : Prop := solid s /\ solid (rev s) /\ no_colon s /\ Forall (fun c => c <> 0) s.
Definition says_text (lab line s : list Z) : Prop := exists b, labelled lab line (s ++ b) /\ trimmed s /\ blanks b.

(** a line that may stand in a header: with a value behind a colon, or one that is not used *)
Definition known (line : list Z) : Prop :=
  (exists lab, In lab value_labels /\ begins lab line /\ In 58 line) \/ (exists lab, In lab other_labels /\ begins lab line).
(** the value is missing or does not begin with a blank *)
Definition unblank (v : list Z) : Prop := match v with c :: _ => c <> 32 | [] => True end.

Section Head.
  Variable W : Type.
  Variable find_wave_entry : list Z -> option W.
  Variable from_char : list Z -> option Z.
  Variable gps2tt : Z -> Z.
  Variable year_start : Z -> Z.
  Variable sdbl : list Z -> option R * list Z.

  Definition says (i : item W) (line : list Z) : Prop :=
    match i with
    | Text f s => exists lab, In lab (text_labels f) /\ says_text lab line s
    | Num f n => exists w r, labelled (num_label f) line (w ++ r) /\ number w n /\ match r with c :: _ => ~ digit_char c | [] => True end
    | Flag f b => says_text (flag_label f) line (if b then chars "YES" else chars "NO")
    | Real f x => exists w r fill b, line = real_label f ++ fill ++ 58 :: b ++ w ++ r /\ no_colon fill /\ blanks b /\
        (colon_from f <= length (real_label f ++ fill))%nat /\ word w /\ at_blank r /\ sdbl w = (Some x, [])
    | Epoch t => exists d, labelled epoch_label line d /\ solid d /\ from_char d = Some t
    | Obs o ns t => exists w x g c d, labelled (obs_label o) line (w ++ g ++ c :: d) /\ word w /\ sdbl w = (Some x, []) /\ (x * 1e9 = IZR ns)%R /\
        Z.abs ns < 2 ^ 63 /\ at_blank g /\ g <> [] /\ Forall (fun c => 0 < c /\ ~ digit_char c) g /\ digit_char c /\ from_char (c :: d) = Some t
    | YearOf o y => exists w r, labelled (year_label o) line (w ++ r) /\ number w y /\ match r with c :: _ => ~ digit_char c | [] => True end
    | Tide v => exists s, says_text tide_label line s /\ (length s <= 7)%nat /\ find_wave_entry s = Some v
    | Other => exists lab, In lab other_labels /\ begins lab line
    end.

  (** the header: lines that say the items, and the line that ends it *)
  Definition header (hl : list (list Z)) (items : list (item W)) : Prop := exists pre e,
    hl = pre ++ [e] /\ Forall2 says items pre /\ begins end_label e /\ Forall short hl /\ (length pre < 99)%nat.
  (** dates of observations agree with their offsets from the epoch that holds before *)
  Fixpoint consistent (e : Z) (items : list (item W)) : Prop :=
    match items with
    | [] => True
    | Epoch t :: r => consistent (gps2tt t) r
    | Obs _ ns t :: r => gps2tt t = e + ns /\ consistent e r
    | _ :: r => consistent e r
    end.
  (** characters available behind the place of a text *)
  Definition room (f : tfield) : nat := match f with Agency => 80 | Satellite => 60 | Sensor => 40 | Level => 20 | Pressure => 16 end.
  (** characters of a text, with one left for the terminator *)
  Definition width (f : tfield) : nat := match f with Agency | Satellite | Sensor => 19 | Level => 3 | Pressure => 15 end.
  Definition texts_within (lim : tfield -> nat) (items : list (item W)) : Prop := forall f s, In (Text f s) items -> (length s <= lim f)%nat.

  (** the lines so far are well-formed *)
  Definition opening (h : head W) (pre : list (list Z)) (items : list (item W)) : Prop :=
    Forall2 says items pre /\ Forall short pre /\ (length pre < 99)%nat /\ texts_within room items /\ length (charArena W h) = 80%nat /\ consistent (time_epoch W h) items.

  (** ** the values that hold after the header: the last ones stated, else the ones before *)
  Definition last_of {A} (sel : item W -> option A) (items : list (item W)) (d : A) : A :=
    fold_left (fun v i => match sel i with Some x => x | None => v end) items d.
  Definition num_of (f : nfield) (i : item W) : option Z :=
    match i, f with
    | Num FileType n, FileType | Num FileFormat n, FileFormat | Num HeaderRecords n, HeaderRecords | Num DataRecords n, DataRecords
    | Num MaxDegree n, MaxDegree | Num DataSets n, DataSets => Some n
    | _, _ => None
    end.
  Definition flag_of (f : ffield) (i : item W) : option Z :=
    match i, f with Flag Errors b, Errors | Flag Normalized b, Normalized => Some (if b then 1 else 0) | _, _ => None end.
  Definition real_of (f : rfield) (i : item W) : option R :=
    match i, f with Real GM x, GM | Real Radius x, Radius | Real Flattening x, Flattening | Real Rotation x, Rotation => Some x | _, _ => None end.
  Definition epoch_of (i : item W) : option Z := match i with Epoch t => Some (gps2tt t) | _ => None end.
  Definition time_of (w : which) (i : item W) : option Z :=
    match i, w with
    | Obs First _ t, First | Obs Last _ t, Last => Some (gps2tt t)
    | YearOf First y, First | YearOf Last y, Last => Some (year_start y)
    | _, _ => None
    end.
  Definition tide_of (i : item W) : option W := match i with Tide v => Some v | _ => None end.
  Definition text_of (f : tfield) (i : item W) : option (list Z) :=
    match i, f with
    | Text Agency s, Agency | Text Satellite s, Satellite | Text Sensor s, Sensor | Text Level s, Level | Text Pressure s, Pressure => Some s
    | _, _ => None
    end.
  (** where the accessors of include/aod1b.hpp find a text *)
  Definition place (f : tfield) : nat := match f with Agency => 0 | Satellite => 20 | Sensor => 40 | Level => 60 | Pressure => 64 end.
  Definition get_num (f : nfield) (h : head W) : Z :=
    match f with FileType => file_type W h | FileFormat => file_format W h | HeaderRecords => num_header_records W h
    | DataRecords => num_data_records W h | MaxDegree => max_degree W h | DataSets => num_data_sets W h end.
  Definition get_flag (f : ffield) (h : head W) : Z := match f with Errors => coeff_errors W h | Normalized => coeff_normalized W h end.
  Definition get_real (f : rfield) (h : head W) : R :=
    match f with GM => cGM W h | Radius => cRe W h | Flattening => cflat W h | Rotation => comega W h end.
  Definition get_time (w : which) (h : head W) : Z := match w with First => first_epoch W h | Last => last_epoch W h end.
  Definition get_text (f : tfield) (h : head W) : res (list Z) := c_str (skipn (place f) (charArena W h)).
  (** a text stated at most once *)
  Definition once (f : tfield) (items : list (item W)) : Prop := forall a b c i j,
    items = a ++ i :: b ++ j :: c -> text_of f i = None \/ text_of f j = None.
End Head.
