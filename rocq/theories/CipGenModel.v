(** The generator of the tables of the pole series: script/tables52ab.py:2905-3068. A line of a table is a [row] (CipRow). Amplitudes
    are compared as floating-point square roots in the script; here the comparison is a parameter, and [amp_le] is the exact one.
    The output is the two arrays without their formatting: {:+12.9e} keeps ten digits. *)
From Coq Require Import ZArith List Bool.
From Verif Require Import PyModel CipRow CipTabScript.
Import ListNotations.
Open Scope Z_scope.

(** class DelauneyTerm: 2924-2928 *)
Record group := mkG { gls : list Z; gx : list plrow; gy : list plrow }.
Inductive component := CX | CY.
Fixpoint zs_same (a b : list Z) : bool := match a, b with [], [] => true | x :: a', y :: b' => (x =? y) && zs_same a' b' | _, _ => false end.

(** line2kv: 3025-3033, with PlanetaryTerm.sumpl: 2918-2919 *)
Definition line2kv (r : row) (power : Z) : list Z * plrow :=
  let pl := skipn 5 (mult r) in
  (firstn 5 (mult r), mkPl (fold_right (fun z a => Z.abs z + a) 0 pl) pl (csin r) (ccos r) power).

Section Amplitudes.
  (** amplitude of the first at most that of the second (line 3004); a group goes before another (lines 2979-2986) *)
  Variable le : plrow -> plrow -> bool.
  Variable lt : group -> group -> bool.
  (** the loop of append_planetary: 2994-3006; None: nothing inserted *)
  Fixpoint insert (t : plrow) (l : list plrow) : option (list plrow) :=
    match l with
    | [] => None
    | v :: r => if ppow v <? ppow t then Some (t :: l)
                else if (ppow v =? ppow t) && le t v then Some (t :: l)
                else option_map (cons v) (insert t r)
    end.
  (** append_planetary: 2988-3007 *)
  Definition append_planetary (t : plrow) (l : list plrow) : py (list plrow) :=
    match l with [] => Val [t] | _ => ofopt AssertionError (insert t l) end.
  Definition append_to (c : component) (t : plrow) (g : group) : py group :=
    match c with
    | CX => let* x := append_planetary t (gx g) in Val (mkG (gls g) x (gy g))
    | CY => let* y := append_planetary t (gy g) in Val (mkG (gls g) (gx g) y)
    end.
  (** lsinlist and the rest of the loop of str2dct: 3019-3023, 3036-3044 *)
  Fixpoint add (c : component) (ls : list Z) (t : plrow) (dl : list group) : py (list group) :=
    match dl with
    | [] => let* g := append_to c t (mkG ls [] []) in Val [g]
    | g :: rest => if zs_same (gls g) ls then let* g' := append_to c t g in Val (g' :: rest)
                   else let* rest' := add c ls t rest in Val (g :: rest')
    end.
  Fixpoint str2dct (tab : list row) (c : component) (power : Z) (dl : list group) : py (list group) :=
    match tab with
    | [] => Val dl
    | r :: rest => let '(ls, t) := line2kv r power in let* dl' := add c ls t dl in str2dct rest c power dl'
    end.
  (** the calls of catTables and appendPowerCoeffs, one after the other: 3047-3066. [dl] is the list the first call starts with, the
      default argument of str2dct, which the calls change *)
  Fixpoint calls (l : list (list row * component * Z)) (dl : list group) : py (list group) :=
    match l with [] => Val dl | (tab, c, power) :: rest => let* dl' := str2dct tab c power dl in calls rest dl' end.

  (** sorted: a stable sort *)
  Fixpoint put (g : group) (l : list group) : list group := match l with [] => [g] | h :: r => if lt g h then g :: l else h :: put g r end.
  Definition sorted (l : list group) : list group := fold_left (fun a g => put g a) l [].
  (** carrays: 3009-3017, with dstr and plstr: 2936-2954 *)
  Definition carrays (l : list group) : list freq * list plrow :=
    (map (fun g => mkFreq (gls g) (Z.of_nat (length (gx g))) (Z.of_nat (length (gy g)))) l, flat_map (fun g => gx g ++ gy g) l).
  Definition generate (l : list (list row * component * Z)) (dl : list group) : py (list freq * list plrow) :=
    let* dl' := calls l dl in Val (carrays (sorted dl')).
End Amplitudes.

(** exact comparisons: squares of the amplitudes; minj and maxampl: 2956-2977; compare: 2979-2984 *)
Definition amp2 (p : plrow) : Z := psin p * psin p + pcos p * pcos p.
Definition amp_le (a b : plrow) : bool := amp2 a <=? amp2 b.
Definition minj (g : group) : Z := fold_left (fun m p => if ppow p <? m then ppow p else m) (gx g ++ gy g) 100.
Definition maxampl (g : group) : Z := fold_left (fun m p => if m <? amp2 p then amp2 p else m) (gx g ++ gy g) 0.
Definition before (a b : group) : bool :=
  if minj b <? minj a then false else if minj a =? minj b then maxampl a <? maxampl b else true.
(** lines 3055-3065 *)
Definition main_calls : list (list row * component * Z) :=
  [(xj0, CX, 0); (yj0, CY, 0); (xj1, CX, 1); (yj1, CY, 1); (xj2, CX, 2); (yj2, CY, 2); (xj3, CX, 3); (yj3, CY, 3); (xj4, CX, 4); (yj4, CY, 4)].
Definition main : py (list freq * list plrow) := generate amp_le before main_calls [].
