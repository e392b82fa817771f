(** Specification of AOD1B names, blocks and streams. *)
From Coq Require Import Reals ZArith List Bool.
From Verif Require Import Base CString FromChars Aod1bModel.
Import ListNotations.
Open Scope Z_scope.

(** the C string at the start of a buffer *)
Fixpoint upto0 (s : list Z) : list Z := match s with [] => [] | c :: t => if c =? 0 then [] else c :: upto0 t end.

(** two digits *)
Definition two_digits (n : Z) : list Z := [48 + n / 10; 48 + n mod 10].

(** ** blocks *)
(** separators: blanks and '+' *)
Definition sep (s : list Z) : Prop := Forall (fun c => c = 32 \/ c = 43) s.
Definition wordp (w : list Z) : Prop := w <> [] /\ Forall (fun c => c <> 32 /\ c <> 43) (firstn 1 w).
Section Blocks.
  Variable sdbl : list Z -> option R * list Z.
  (** a coefficient line *)
  Definition coef_line (line : list Z) (l m : Z) (c s : R) : Prop := exists s1 w1 s2 w2 s3 w3 s4 w4 rest,
    line = s1 ++ w1 ++ 32 :: s2 ++ w2 ++ 32 :: s3 ++ w3 ++ 32 :: s4 ++ w4 ++ rest /\
    sep s1 /\ sep s2 /\ sep s3 /\ sep s4 /\ wordp w1 /\ wordp w2 /\ wordp w3 /\ wordp w4 /\ at_blank rest /\
    scan_i32 w1 = (Some l, []) /\ scan_i32 w2 = (Some m, []) /\ sdbl w3 = (Some c, []) /\ sdbl w4 = (Some s, []) /\
    (length line < 124)%nat.
  (** what a list of coefficient lines says about a coefficient: the last line wins *)
  Definition entry := (Z * Z * R * R)%type.
  Fixpoint value_of (es : list entry) (l m : Z) : option (R * R) :=
    match es with
    | [] => None
    | (l', m', c, s) :: rest =>
        match value_of rest l m with Some v => Some v | None => if (l =? l') && (m =? m') then Some (c, s) else None end
    end.
  Definition valid_entry (e : entry) : Prop := let '(l, m, _, _) := e in 0 <= m <= l.
  Definition lines_say (lines : list (list Z)) (es : list entry) : Prop :=
    Forall2 (fun line e => let '(l, m, c, s) := e in coef_line line l m c s) lines es.
  (** largest degree and order among the entries within limits *)
  Definition within_limits (N M : Z) (e : entry) : bool := let '(l, m, _, _) := e in (l <=? N) && (m <=? M).
  Definition top_degree (es : list entry) : Z := fold_right (fun e a => let '(l, _, _, _) := e in Z.max l a) 0 es.
  Definition top_order (es : list entry) : Z := fold_right (fun e a => let '(_, m, _, _) := e in Z.max m a) 0 es.
End Blocks.

(** ** streams *)
Section Streams.
  Context {C : Type}.
  Notation block := (block C).
  (** strictly increasing epochs *)
  Fixpoint increasing (l : list block) : Prop :=
    match l with [] => True | b :: l' => Forall (fun q => ep C b < ep C q) l' /\ increasing l' end.
  (** two consecutive blocks around an epoch *)
  Definition bracket (bl : list block) (t : Z) (p : (Z * C) * (Z * C)) : Prop := exists l1 b1 b2 l2,
    bl = l1 ++ b1 :: b2 :: l2 /\ ep C b1 <= t < ep C b2 /\ p = ((ep C b1, co C b1), (ep C b2, co C b2)).
  (** the stream has buffered x0 x1 x2 and is about to read [rest] *)
  Definition buffered (s : st C) (x0 x1 x2 : block) (rest : list block) : Prop :=
    h C s = (ep C x0, ep C x1, ep C x2) /\ c C s = (co C x0, co C x1, co C x2) /\
    match rest with b :: r => mit C s = Some b /\ unread C s = r | [] => mit C s = None /\ unread C s = [] end.
  (** consecutive blocks at least [d] apart *)
  Fixpoint spaced (d : Z) (l : list block) : Prop :=
    match l with b :: ((q :: _) as l') => d <= ep C q - ep C b /\ spaced d l' | _ => True end.
  (** queries in order, none later than [d] after the one before *)
  Fixpoint stepping (d t : Z) (ts : list Z) : Prop := match ts with [] => True | u :: r => t <= u <= t + d /\ stepping d u r end.
End Streams.
