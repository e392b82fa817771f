(** The closed formula for the Earth rotation quaternion and the derivative matrix with rounding: src/lib/earth_rotation/c2i06abz.cpp,
    the second function of c2i06a.cpp. The relations are read as those of FlRotModel. *)
From Coq Require Import Reals List.
From Verif Require Import Vec FundModel RotModel FlModel FlCipModel FlEraModel FlRotModel.
Import ListNotations.
Open Scope R_scope.

(** ** gcrs2itrs_quaternion: c2i06abz.cpp:5-47 *)
(** one component, lines 35-43: [f * (c * (first sum) + s * (second sum))] *)
Definition component_run (f c s : R) (l1 l2 : list (R * R)) (v : R) : Prop :=
  exists a b g, dot_run l1 a /\ dot_run l2 b /\ dot_run [(c, a); (s, b)] g /\ near (f * g) v.
Definition bz_run (era s sp Xcip Ycip xp yp : R) (q : quat) : Prop :=
  exists cx sx cy sy tw aw bw cw t1 t2 ct st d e sd ce se Z X Y p pp r f,
    half_run xp cx sx /\ half_run yp cy sy /\ near (cx * cy) tw /\ near (cx * sy) aw /\ near (cy * sx) bw /\ near (sx * sy) cw /\
    near (era + sp) t1 /\ near (t1 - s) t2 /\ half_run t2 ct st /\
    spherical_run Xcip Ycip d e /\ Rabs (sd - sin d) <= / 2 ^ 52 /\ Rabs (ce - cos e) <= / 2 ^ 52 /\ Rabs (se - sin e) <= / 2 ^ 52 /\ Rabs (Z - cos d) <= / 2 ^ 52 /\
    near (sd * ce) X /\ near (sd * se) Y /\ near (1 + Z) p /\ near (2 * p) pp /\ near (sqrt pp) r /\ near (1 / r) f /\
    component_run f ct st [(X, bw); (- Y, aw); (p, tw)] [(X, aw); (Y, bw); (p, cw)] (qw q) /\
    component_run f ct st [(X, cw); (Y, tw); (p, aw)] [(- X, tw); (Y, cw); (- p, bw)] (qx q) /\
    component_run f ct st [(- X, tw); (Y, cw); (p, bw)] [(- X, cw); (- Y, tw); (p, aw)] (qy q) /\
    component_run f ct st [(- X, aw); (- Y, bw); (p, cw)] [(X, bw); (- Y, aw); (- p, tw)] (qz q).
(** c2i06a_bz: lines 49-72 *)
Definition c2i06a_bz_run (T : times) (o : eop) (q : quat) : Prop :=
  exists X Y s era sp xp yp, pole_run T o X Y s /\ era_run T era /\ sp00_run T sp /\ sec_run (e_xp o) xp /\ sec_run (e_yp o) yp /\ bz_run era s sp X Y xp yp q.

(** ** the derivative: c2i06a.cpp:31-64 *)
(** Quaternion::toRotationMatrix; products with 2 are exact *)
Definition qmat_run (q : quat) (A : m33) : Prop :=
  dot_run [(1, 1); (- (2 * qy q), qy q); (- (2 * qz q), qz q)] (p1 (row1 A)) /\ dot_run [(2 * qy q, qx q); (- (2 * qz q), qw q)] (p2 (row1 A)) /\ dot_run [(2 * qz q, qx q); (2 * qy q, qw q)] (p3 (row1 A)) /\
  dot_run [(2 * qy q, qx q); (2 * qz q, qw q)] (p1 (row2 A)) /\ dot_run [(1, 1); (- (2 * qx q), qx q); (- (2 * qz q), qz q)] (p2 (row2 A)) /\ dot_run [(2 * qz q, qy q); (- (2 * qx q), qw q)] (p3 (row2 A)) /\
  dot_run [(2 * qz q, qx q); (- (2 * qy q), qw q)] (p1 (row3 A)) /\ dot_run [(2 * qz q, qy q); (2 * qx q, qw q)] (p2 (row3 A)) /\ dot_run [(1, 1); (- (2 * qx q), qx q); (- (2 * qy q), qy q)] (p3 (row3 A)).
(** Matrix3 * Matrix3 *)
Definition row_run (v : v3) (B : m33) (r : v3) : Prop :=
  dot_run [(p1 v, p1 (row1 B)); (p2 v, p1 (row2 B)); (p3 v, p1 (row3 B))] (p1 r) /\
  dot_run [(p1 v, p2 (row1 B)); (p2 v, p2 (row2 B)); (p3 v, p2 (row3 B))] (p2 r) /\
  dot_run [(p1 v, p3 (row1 B)); (p2 v, p3 (row2 B)); (p3 v, p3 (row3 B))] (p3 r).
Definition mmul_run (A B M : m33) : Prop := row_run (row1 A) B (row1 M) /\ row_run (row2 A) B (row2 M) /\ row_run (row3 A) B (row3 M).
(** C: earth_rotation.hpp:136-143 *)
Definition C_run (X Y s : R) (q : quat) : Prop :=
  exists d e t a b c q1, spherical_run X Y d e /\ near (e + s) t /\ aaZ_run t a /\ aaY_run (- d) b /\ aaZ_run (- e) c /\ qmul_run a b q1 /\ qmul_run q1 c q.
(** dRdt: earth_rotation.hpp:231-240 *)
Definition dRdt_run (era omega : R) (D : m33) : Prop :=
  exists si co os oc, Rabs (si - sin era) <= / 2 ^ 52 /\ Rabs (co - cos era) <= / 2 ^ 52 /\ near (omega * si) os /\ near (omega * co) oc /\
    D = mkM (mk3 (- os) oc 0) (mk3 (- oc) (- os) 0) (mk3 0 0 0).
(** earth_rotation_rate: earth_rotation.hpp:368-370; OmegaEarth is the double next to its decimals *)
Definition rate_run (lod v : R) : Prop := exists O a b, near OmegaEarth O /\ near (lod / 86400) a /\ near (1 - a) b /\ near (O * b) v.
Definition dM_run (T : times) (o : eop) (M : m33) : Prop :=
  exists X Y s era sp xp yp w qt qc A D B P, pole_run T o X Y s /\ era_run T era /\ sp00_run T sp /\ sec_run (e_xp o) xp /\ sec_run (e_yp o) yp /\
    rate_run (e_lod o) w /\ tirs2i_run xp yp sp qt /\ C_run X Y s qc /\ qmat_run qt A /\ dRdt_run era w D /\ qmat_run qc B /\ mmul_run A D P /\ mmul_run P B M.
(** the quaternion is that of the first function *)
Definition c2i06a_dM_run (T : times) (o : eop) (q : quat) (M : m33) : Prop := c2i06a_run T o q /\ dM_run T o M.
(** Matrix3 * Vector3 *)
Definition app3_run (M : m33) (v r : v3) : Prop :=
  dot_run [(p1 (row1 M), p1 v); (p2 (row1 M), p2 v); (p3 (row1 M), p3 v)] (p1 r) /\
  dot_run [(p1 (row2 M), p1 v); (p2 (row2 M), p2 v); (p3 (row2 M), p3 v)] (p2 r) /\
  dot_run [(p1 (row3 M), p1 v); (p2 (row3 M), p2 v); (p3 (row3 M), p3 v)] (p3 r).
