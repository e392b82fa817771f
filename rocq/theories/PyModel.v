(** Python computations and strings, for the programs in bin and the test suite. Strings are lists of code points; the texts are ASCII without
    carriage returns (no translation of line ends, no other white space). *)
From Coq Require Import Ascii String ZArith List Bool.
From Verif Require Import Base CString FromChars PlanetModel.
Import ListNotations.
Open Scope Z_scope.

(** a value, an exception that nothing catches, or a loop without end *)
Inductive exn := IndexError | KeyError | TypeError | ValueError | AssertionError | AttributeError | NameError | OSError | CalledProcessError | Exit (code : Z).
Inductive py (A : Type) := Val (a : A) | Raise (e : exn) | Forever.
Arguments Val {A}. Arguments Raise {A}. Arguments Forever {A}.
Definition pbind {A B} (r : py A) (f : A -> py B) : py B := match r with Val a => f a | Raise e => Raise e | Forever => Forever end.
Notation "'let*' p := r 'in' k" := (pbind r (fun x => match x with p => k end)) (at level 200, p pattern, right associativity).
Definition ofopt {A} (e : exn) (o : option A) : py A := match o with Some a => Val a | None => Raise e end.

(** str ==, str.strip, str.rstrip *)
Fixpoint text_eqb (a b : list Z) : bool := match a, b with [], [] => true | x :: a', y :: b' => (x =? y) && text_eqb a' b' | _, _ => false end.
Definition isspace (c : Z) : bool := (c =? 32) || ((9 <=? c) && (c <=? 13)) || ((28 <=? c) && (c <=? 31)).
Fixpoint lstrip (s : list Z) : list Z := match s with [] => [] | c :: t => if isspace c then lstrip t else s end.
Definition rstrip (s : list Z) : list Z := rev (lstrip (rev s)).
Definition strip (s : list Z) : list Z := rstrip (lstrip s).
(** file.readlines: lines with their newline *)
Fixpoint lines (s : list Z) : list (list Z) :=
  match s with
  | [] => []
  | c :: t => if c =? 10 then [10] :: lines t else match lines t with [] => [[c]] | l :: r => (c :: l) :: r end
  end.
(** s.split(c, 1): None: one part only *)
Fixpoint split1 (c : Z) (s : list Z) : option (list Z * list Z) :=
  match s with [] => None | x :: t => if x =? c then Some ([], t) else match split1 c t with Some (a, b) => Some (x :: a, b) | None => None end end.
(** s.split(): words *)
Fixpoint words (s : list Z) : list (list Z) :=
  match s with
  | [] => []
  | c :: t => if isspace c then words t else
      match t with
      | [] => [[c]]
      | d :: _ => if isspace d then [c] :: words t else match words t with w :: r => (c :: w) :: r | [] => [[c]] end
      end
  end.
(** s.replace(old, new), old not empty: occurrences from the left that do not overlap; [n] characters of one are still to be dropped *)
Fixpoint replace_from (old new : list Z) (n : nat) (s : list Z) : list Z :=
  match s with
  | [] => []
  | c :: t =>
      match n with
      | S k => replace_from old new k t
      | O => if text_eqb old (firstn (length old) s) then new ++ replace_from old new (length old - 1) t else c :: replace_from old new 0 t
      end
  end.
Definition replace (old new s : list Z) : list Z := replace_from old new 0 s.
(** os.path.join *)
Definition pathjoin (a b : list Z) : list Z :=
  match b with
  | 47 :: _ => b
  | _ => match rev a with [] => b | 47 :: _ => a ++ b | _ => a ++ 47 :: b end
  end.
(** '{:}'.format(int); int(str): blanks around, a sign, digits ("1_000" left out) *)
Definition str_int (n : Z) : list Z := let k := S (Z.to_nat (Z.log2 (Z.abs n))) in if n <? 0 then 45 :: digits k (- n) [] else digits k n [].
Definition parse_int (s : list Z) : option Z :=
  let s := strip s in
  let neg := match s with c :: _ => c =? 45 | [] => false end in
  let sgn := match s with c :: _ => (c =? 45) || (c =? 43) | [] => false end in
  let (d, r) := take_digits (if sgn then tl s else s) in
  match d, r with _ :: _, [] => Some (if neg then - digits_val d else digits_val d) | _, _ => None end.
(** '{:30s}'.format(s) *)
Definition pad (n : nat) (s : list Z) : list Z := s ++ repeat 32 (n - length s).
(** dict: pairs in the order of insertion; d[k]; d[k] = v *)
Definition dict := list (list Z * list Z).
Fixpoint dget (d : dict) (k : list Z) : option (list Z) := match d with [] => None | (k', v) :: r => if text_eqb k k' then Some v else dget r k end.
Fixpoint dset (d : dict) (k v : list Z) : dict := match d with [] => [(k, v)] | (k', w) :: r => if text_eqb k k' then (k', v) :: r else (k', w) :: dset r k v end.
