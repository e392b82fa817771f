(** C characters and strings: bytes as signed integers (char is signed on the supported
    platforms), strings as the list of bytes of the object the pointer points to. *)
From Coq Require Import Ascii String ZArith List Bool Lia.
From Verif Require Import Base.
Import ListNotations.
Open Scope Z_scope.

(** conversion int -> char (two's complement) *)
Definition to_char (x : Z) : Z := (x + 128) mod 256 - 128.

(** cstr[i]: reading outside the object is undefined *)
Definition rd (s : list Z) (i : Z) : res Z :=
  match znth s i with Some c => Ok c | None => UB end.

(** std::isdigit, std::tolower, std::isspace in the C locale; defined for EOF and unsigned char values
    only, so that a negative char other than EOF = -1 is undefined behaviour *)
Definition ctype_ok (c : Z) : bool := -1 <=? c.
Definition isdigit (c : Z) : res bool := if ctype_ok c then Ok ((48 <=? c) && (c <=? 57)) else UB.
Definition tolower (c : Z) : res Z :=
  if ctype_ok c then Ok (if (65 <=? c) && (c <=? 90) then c + 32 else c) else UB.

(** a C string argument read up to its terminator, e.g. by "%s": some byte must be 0 *)
Fixpoint c_str (s : list Z) : res (list Z) :=
  match s with
  | [] => UB
  | c :: t => if c =? 0 then Ok [] else r <- c_str t ;; Ok (c :: r)
  end.

(** text constants *)
Definition chars (s : string) : list Z :=
  map (fun a => to_char (Z.of_nat (nat_of_ascii a))) (list_ascii_of_string s).
Definition cstring (s : string) : list Z := (chars s ++ [0])%list.

Lemma to_char_id x : -128 <= x < 128 -> to_char x = x.
Proof. intros. unfold to_char. rewrite Z.mod_small; lia. Qed.
Lemma to_char_range x : -128 <= to_char x < 128.
Proof. unfold to_char. pose proof (Z.mod_pos_bound (x + 128) 256). lia. Qed.
