(** Tidal variations of pole coordinates, UT1 and length of day with rounding (FlModel): src/lib/eop/{libration,ocean_tide_variation,
    zonal_tides}.cpp, include/doodson.hpp:292-296, 340-349. Tables of EtvModel. *)
From Coq Require Import Reals ZArith List.
From Verif Require Import KahanModel DoodsonModel EtvModel FlModel FlFloatModel FlEraModel.
Import ListNotations.
Open Scope nat_scope.

(** doodson.hpp:342-346 inside anp: doodson[1..5] from l, l', F, D, Omega (variables 0 to 4) *)
Definition doodsone : list expr :=
  let a := Add (Var 2) (Var 4) in [a; Sub a (Var 3); Sub a (Var 0); Neg (Var 4); Sub (Sub a (Var 3)) (Var 1)].
(** line 347: gmst, DPI and doodson[1] (variables 0, 1, 2) *)
Definition taue : expr := Sub (Add (Var 0) (Var 1)) (Var 2).
(** lines 292-296 inside anp: variables tau, s, h, p, N', ps *)
Definition argumente (n : doodson) : expr :=
  let p i k := Mul (Var i) (Int k) in Add (Add (Add (Add (Add (p 0 (n0 n)) (p 1 (n1 n))) (p 2 (n2 n))) (p 3 (n3 n))) (p 4 (n4 n))) (p 5 (n5 n)).
(** libration.cpp:543-551, ocean_tide_variation.cpp:918-926 for the coefficients [c]; variable i is the argument of wave i *)
Fixpoint seriese (c : wave -> Z * Z) (i : nat) (tab : list wave) (acc : expr) : expr :=
  match tab with
  | [] => acc
  | w :: tab' => seriese c (S i) tab' (Add acc (Add (Mul (Sin (Var i)) (Dec (fst (c w)) 2)) (Mul (Cos (Var i)) (Dec (snd (c w)) 2))))
  end.
Definition cx (w : wave) := (xps w, xpc w).
Definition cy (w : wave) := (yps w, ypc w).
Definition cu (w : wave) := (ut1s w, ut1c w).
Definition cl (w : wave) := (lods w, lodc w).
(** zonal_tides.cpp:14-18 inside anp *)
Definition ksie (w : zwave) : expr :=
  let p i k := Mul (Var i) (Int k) in Add (Add (Add (Add (p 0 (lm w)) (p 1 (lpm w))) (p 2 (fm w))) (p 3 (dm w))) (p 4 (om w)).
(** zonal_tides.cpp:97-102: [sc] the sine comes first *)
Fixpoint zonale (sc : bool) (c : zwave -> Z * Z) (i : nat) (tab : list zwave) (acc : expr) : expr :=
  match tab with
  | [] => acc
  | w :: tab' =>
      let a := if sc then Sin (Var i) else Cos (Var i) in let b := if sc then Cos (Var i) else Sin (Var i) in
      zonale sc c (S i) tab' (Add acc (Add (Mul (Dec (fst (c w)) 4) a) (Mul (Dec (snd (c w)) 4) b)))
  end.
(** lines 104-106 *)
Definition zut1e : expr := Mul (zonale true (fun w => (dut1B w, dut1C w)) 0 Table81 (Int 0)) (Int 100).
Definition zlode : expr := Mul (zonale false (fun w => (dlodB w, dlodC w)) 0 Table81 (Int 0)) (Int 10).
Definition zomegae : expr := zonale false (fun w => (domegaB w, domegaC w)) 0 Table81 (Int 0).

Open Scope R_scope.
Definition lenv (l : list R) (i : nat) : R := nth i l 0.
(** anp of an expression *)
Definition reduced_run (env : nat -> R) (e : expr) (v : R) : Prop := exists p, run env e p /\ anp_run p v.
(** [F]: at least the five Delaunay arguments; [D]: the Doodson variables *)
Definition doodson_run (F : list R) (gmst dpi : R) (D : list R) : Prop :=
  exists d0 s D', D = d0 :: s :: D' /\ Forall2 (reduced_run (lenv (firstn 5 F))) doodsone (s :: D') /\ reduced_run (lenv [gmst; dpi; s]) taue d0.
Definition deop_run (tab : list wave) (F : list R) (gmst dpi : R) (r : eop) : Prop :=
  exists D A, doodson_run F gmst dpi D /\ Forall2 (reduced_run (lenv D)) (map (fun w => argumente (dn w)) tab) A /\
    run (lenv A) (seriese cx 0 tab (Int 0)) (dxp r) /\ run (lenv A) (seriese cy 0 tab (Int 0)) (dyp r) /\
    run (lenv A) (seriese cu 0 tab (Int 0)) (dut1 r) /\ run (lenv A) (seriese cl 0 tab (Int 0)) (dlod r).
Definition zonal_run (F : list R) (r : zeop) : Prop :=
  exists A, Forall2 (reduced_run (lenv (firstn 5 F))) (map ksie Table81) A /\
    run (lenv A) zut1e (zut1 r) /\ run (lenv A) zlode (zlod r) /\ run (lenv A) zomegae (zomega r).

(** ** binary64 *)
Section Doubles.
  Variables dsin dcos dsec danp : double -> double.
  Notation ex := (exec dsin dcos dsec).
  Definition denv (l : list double) (i : nat) : double := nth i l dzero.
  Definition reduced64 (E : nat -> double) (e : expr) : double := danp (ex E e).
  Definition doodson64 (F : list double) (gmst dpi : double) : list double :=
    let D := map (reduced64 (denv (firstn 5 F))) doodsone in reduced64 (denv [gmst; dpi; nth 0 D dzero]) taue :: D.
  Record eop64 := mkEop64 { bxp : double; byp : double; but1 : double; blod : double }.
  Definition deop64 (tab : list wave) (F : list double) (gmst dpi : double) : eop64 :=
    let A := denv (map (fun w => reduced64 (denv (doodson64 F gmst dpi)) (argumente (dn w))) tab) in
    mkEop64 (ex A (seriese cx 0 tab (Int 0))) (ex A (seriese cy 0 tab (Int 0))) (ex A (seriese cu 0 tab (Int 0))) (ex A (seriese cl 0 tab (Int 0))).
  Record zeop64 := mkZeop64 { bzut1 : double; bzlod : double; bzomega : double }.
  Definition zonal64 (F : list double) : zeop64 :=
    let A := denv (map (fun w => reduced64 (denv (firstn 5 F)) (ksie w)) Table81) in mkZeop64 (ex A zut1e) (ex A zlode) (ex A zomegae).
End Doubles.
