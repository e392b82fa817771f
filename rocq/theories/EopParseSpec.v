(** What a C04 file says. *)
From Coq Require Import Reals ZArith List Bool.
From Verif Require Import Base FromChars EopModel EopSpec.
Import ListNotations.
Open Scope Z_scope.

(** words with the number of blanks before each, then the rest of the line *)
Fixpoint join (ws : list (nat * list Z)) (rest : list Z) : list Z :=
  match ws with [] => rest | (n, w) :: l => repeat 32 n ++ w ++ join l rest end.

Section Spec.
  Context {T : Type}.
  Variable tt_of_utc : Z -> R -> T.
  Variable dat : Z -> R.
  Variable sdbl : list Z -> option R * list Z.
  Variable modf : R -> Z * R.

  (** blank-led or '#'-led lines, empty lines *)
  Definition ignored (line : list Z) : Prop :=
    (length line < 256)%nat /\ (line = [] \/ exists c l, line = c :: l /\ (c = 32 \/ c = 35)).
  (** a date in the first 12 columns, then words *)
  Definition dated (line : list Z) (ws : list (nat * list Z)) (rest : list Z) : Prop :=
    (length line < 256)%nat /\ at_blank rest /\ Forall (fun nw => word (snd nw)) ws /\ Forall (fun nw => (1 <= fst nw)%nat) (tl ws) /\
    exists c pre, c <> 32 /\ c <> 35 /\ length pre = 11%nat /\ line = c :: pre ++ join ws rest.
  Definition number (nw : nat * list Z) (v : R) : Prop := sdbl (snd nw) = (Some v, []).

  (** C04/14: MJD x y UT1-UTC LOD dX dY *)
  Definition says14 (line : list Z) (r : rec T) : Prop := exists wm ws rest m vx vy vu vl vdx vdy,
    dated line (wm :: ws) rest /\ scan_i64 (snd wm) = (Some m, []) /\
    Forall2 number ws [vx; vy; vu; vl; vdx; vdy] /\
    r = mkR T (tt_of_utc m 0%R) vx vy vu vl vdx vdy (dat m) 0%R 0%R.
  (** C04/20: hours MJD x y UT1-UTC dX dY xrt yrt LOD; the hours are those of the MJD *)
  Definition says20 (line : list Z) (r : rec T) : Prop := exists wh wm ws rest h mjd m f vx vy vu vdx vdy vxr vyr vl,
    dated line (wh :: wm :: ws) rest /\ scan_i32 (snd wh) = (Some h, []) /\ number wm mjd /\
    modf mjd = (m, f) /\ f = (IZR h / 24)%R /\
    Forall2 number ws [vx; vy; vu; vdx; vdy; vxr; vyr; vl] /\
    r = mkR T (tt_of_utc m (f * 86400)%R) vx vy vu vl vdx vdy (dat m) vxr vyr.

  (** a file and its records in order *)
  Inductive file_says (says : list Z -> rec T -> Prop) : list (list Z) -> list (rec T) -> Prop :=
  | fs_nil : file_says says [] []
  | fs_skip line l rs : ignored line -> file_says says l rs -> file_says says (line :: l) rs
  | fs_data line l r rs : says line r -> file_says says l rs -> file_says says (line :: l) (r :: rs).

  (** records before the first one not earlier than an epoch *)
  Variable ltb : T -> T -> bool.
  Fixpoint until (stop : T) (rs : list (rec T)) : list (rec T) :=
    match rs with [] => [] | r :: l => if ltb (rt T r) stop then r :: until stop l else [] end.
  Definition not_before (start : T) (rs : list (rec T)) : list (rec T) := filter (fun r => negb (ltb (rt T r) start)) rs.
  Definition within (start stop : T) (rs : list (rec T)) : list (rec T) :=
    filter (fun r => negb (ltb (rt T r) start) && ltb (rt T r) stop) rs.

  (** no number can be read *)
  Definition unreadable (c : list Z) : Prop := fst (sdbl c) = None \/ length (snd (sdbl c)) = length c.
  (** a C04/14 line for an epoch within the interval, one of whose six columns cannot be read *)
  Definition broken14 (start stop : T) (line : list Z) : Prop := exists wm ws vs rest m,
    dated line (wm :: ws) rest /\ scan_i64 (snd wm) = (Some m, []) /\
    ltb (tt_of_utc m 0%R) start = false /\ ltb (tt_of_utc m 0%R) stop = true /\
    Forall2 number ws vs /\ (length ws < 6)%nat /\ unreadable (skip_blanks rest).
  Definition broken20 (start stop : T) (line : list Z) : Prop := exists wh wm ws vs rest h mjd m f,
    dated line (wh :: wm :: ws) rest /\ scan_i32 (snd wh) = (Some h, []) /\ number wm mjd /\ modf mjd = (m, f) /\ f = (IZR h / 24)%R /\
    ltb (tt_of_utc m (f * 86400)%R) start = false /\ ltb (tt_of_utc m (f * 86400)%R) stop = true /\
    Forall2 number ws vs /\ (length ws < 8)%nat /\ unreadable (skip_blanks rest).
  (** a line without a readable MJD (C04/14), hour or MJD (C04/20) *)
  Definition undated14 (line : list Z) : Prop := exists rest, dated line [] rest /\ fst (scan_i64 (skip_blanks rest)) = None.
  Definition undated20 (line : list Z) : Prop :=
    (exists rest, dated line [] rest /\ fst (scan_i32 (skip_blanks rest)) = None) \/
    (exists wh h rest, dated line [wh] rest /\ scan_i32 (snd wh) = (Some h, []) /\ unreadable (skip_blanks rest)).
End Spec.
