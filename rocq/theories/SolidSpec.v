(** What C50 talks about: IERS Conventions (2010), section 6.2. *)
From Coq Require Import Reals ZArith List Bool.
From Verif Require Import Base MatrixModel DoodsonModel DoodsonArgModel DoodsonArgSpec AlfSpec FundSpec TideModel TideSpec SolidModel Vec.
Import ListNotations.
Open Scope R_scope.

(** ** complex numbers *)
Definition C : Type := R * R.
Definition cadd (a b : C) : C := (fst a + fst b, snd a + snd b).
Definition cmul (a b : C) : C := (fst a * fst b - snd a * snd b, fst a * snd b + snd a * fst b).
Definition cscale (k : R) (a : C) : C := (k * fst a, k * snd a).
Definition cis (x : R) : C := (cos x, sin x).
Definition csum (l : list C) : C := fold_right cadd (0, 0) l.

(** ** step 1 *)
(** spherical coordinates of a point *)
Definition position (r lat lon : R) : v3 := mk3 (r * (cos lat * cos lon)) (r * (cos lat * sin lon)) (r * sin lat).
Record place := mkPl { radius : R; latitude : R; longitude : R }.
Definition is_at (v : v3) (p : place) : Prop := 0 < radius p /\ v = position (radius p) (latitude p) (longitude p).
(** Table 6.3: k_nm, and k^(+)_2m for its effect on degree 4 *)
Record love_numbers := mkLove { kk : nat -> nat -> C; kplus : nat -> R }.
Definition anelastic : love_numbers := mkLove
  (fun n m => match n, m with
     | 2%nat, 0%nat => (0.30190, 0) | 2%nat, 1%nat => (0.29830, -0.00144) | 2%nat, 2%nat => (0.30102, -0.00130)
     | 3%nat, 3%nat => (0.094, 0) | 3%nat, _ => (0.093, 0) | _, _ => (0, 0) end)
  (fun m => match m with 0%nat => -0.00089 | 1%nat => -0.00080 | 2%nat => -0.00057 | _ => 0 end).
Definition elastic : love_numbers := mkLove
  (fun n m => match n, m with
     | 2%nat, 0%nat => (0.29525, 0) | 2%nat, 1%nat => (0.29470, 0) | 2%nat, 2%nat => (0.29801, 0)
     | 3%nat, 3%nat => (0.094, 0) | 3%nat, _ => (0.093, 0) | _, _ => (0, 0) end)
  (fun m => match m with 0%nat => -0.00087 | 1%nat => -0.00079 | 2%nat => -0.00057 | _ => 0 end).
(** (6.6) and (6.7): contribution of one body to Delta C_nm - i Delta S_nm *)
Definition body (K : love_numbers) (Re ratio : R) (p : place) (n m : nat) : C :=
  match n with
  | 2%nat | 3%nat =>
      cscale (ratio * (Re / radius p) ^ (n + 1) * Pbar n m (latitude p) / INR (2 * n + 1)) (cmul (kk K n m) (cis (- (INR m * longitude p))))
  | 4%nat =>
      if (m <=? 2)%nat then cscale (kplus K m / 5 * ratio * (Re / radius p) ^ 3 * Pbar 2 m (latitude p)) (cis (- (INR m * longitude p))) else (0, 0)
  | _ => (0, 0)
  end.
Definition step1 (K : love_numbers) (Re ratio_sun ratio_moon : R) (sun moon : place) (n m : nat) : C :=
  cadd (body K Re ratio_sun sun n m) (body K Re ratio_moon moon n m).

(** ** step 2 *)
(** a constituent by its Doodson number: six digits, all but the first increased by five *)
Definition digit (c : Z) (k : nat) : Z := (c / 10 ^ Z.of_nat k mod 10)%Z.
Definition of_code (c : Z) : doodson :=
  mkD (digit c 5) (digit c 4 - 5) (digit c 3 - 5) (digit c 2 - 5) (digit c 1 - 5) (digit c 0 - 5) 0.
(** Tables 6.5a (diurnal), 6.5b (long period), 6.5c (semi-diurnal): Doodson number, in phase and out of phase amplitude, 10^-13 *)
Definition table_a : list (Z * (Z * Z)) := [
  (125755, (-1, 0)); (127555, (-1, 0)); (135645, (-1, 0)); (135655, (-7, 1)); (137455, (-1, 0)); (145545, (-13, 1));
  (145555, (-68, 6)); (147555, (1, 0)); (153655, (1, 0)); (155445, (1, 0)); (155455, (4, 0)); (155655, (13, -1));
  (155665, (3, 0)); (157455, (3, 0)); (157465, (1, 0)); (162556, (-19, 1)); (163545, (5, 0)); (163555, (-434, 29));
  (164554, (6, 0)); (164556, (16, -1)); (165345, (1, 0)); (165535, (1, 0)); (165545, (-88, 5)); (165555, (4709, -302));
  (165565, (681, -46)); (165575, (-16, 1)); (166455, (1, 0)); (166544, (-1, 0)); (166554, (-206, -3)); (166556, (3, 0));
  (166564, (-3, 0)); (167355, (-2, 0)); (167365, (-1, 0)); (167555, (-50, 3)); (167565, (2, 0)); (168554, (-2, 0));
  (173655, (-5, 0)); (173665, (-1, 0)); (175445, (1, 0)); (175455, (-21, 1)); (175465, (-4, 0)); (183555, (-2, 0));
  (185355, (-1, 0)); (185555, (-6, 0)); (185565, (-4, 0)); (185575, (-1, 0)); (195455, (-1, 0)); (195465, (-1, 0))]%Z.
Definition table_b : list (Z * (Z * Z)) := [
  (55565, (166, -67)); (55575, (-1, 1)); (56554, (-12, 8)); (57555, (-55, 43)); (57565, (1, -1)); (58554, (-3, 2));
  (63655, (-3, 7)); (65445, (1, -2)); (65455, (-12, 37)); (65465, (1, -2)); (65655, (1, -2)); (73555, (0, 6));
  (75355, (0, 3)); (75555, (6, 63)); (75565, (2, 26)); (75575, (0, 2)); (83655, (1, 2)); (85455, (4, 11));
  (85465, (2, 5)); (93555, (1, 2)); (95355, (1, 1))]%Z.
Definition table_c : list (Z * (Z * Z)) := [(245655, (-3, 0)); (255555, (-12, 0))]%Z.
Definition table (m : nat) : list (Z * (Z * Z)) := match m with 0%nat => table_b | 1%nat => table_a | 2%nat => table_c | _ => [] end.
(** -i for order one *)
Definition eta (m : nat) : C := match m with 1%nat => (0, -1) | _ => (1, 0) end.
(** (6.8b): sum over the constituents of order m, times eta; [theta]: the phase *)
Definition band (theta : doodson -> R) (m : nat) : C :=
  cmul (eta m) (csum (map (fun x => cmul (IZR (fst (snd x)) * 1e-13, IZR (snd (snd x)) * 1e-13) (cis (theta (of_code (fst x))))) (table m))).
(** (6.8a) takes the real part for order zero *)
Definition step2 (theta : doodson -> R) (n m : nat) : C :=
  match n, m with 2%nat, 0%nat => (fst (band theta 0), 0) | 2%nat, 1%nat | 2%nat, 2%nat => band theta m | _, _ => (0, 0) end.
(** phase at a date: Delaunay arguments and Greenwich mean sidereal time *)
Definition phase (F : delaunay) (jd_tt jd_ut1 : R) (d : doodson) : R := iers_argument d F (sidereal_time jd_tt jd_ut1).

(** ** sum: coefficients Delta C_nm and Delta S_nm *)
Definition total (K : love_numbers) (Re ratio_sun ratio_moon : R) (sun moon : place) (theta : doodson -> R) (n m : nat) : C :=
  cadd (step1 K Re ratio_sun ratio_moon sun moon n m) (step2 theta n m).
Definition deltaC (x : C) : R := fst x.
Definition deltaS (x : C) : R := - snd x.

(** order of the arrays of step 1 *)
Definition slots : list (nat * nat) := [(2, 0); (2, 1); (2, 2); (3, 0); (3, 1); (3, 2); (3, 3); (4, 0); (4, 1); (4, 2); (4, 3); (4, 4)]%nat.
(** surface harmonics, cosine and sine part *)
Definition harm (n m : nat) (p : place) : C := (Pbar n m (latitude p) * cos (INR m * longitude p), Pbar n m (latitude p) * sin (INR m * longitude p)).
(** cosine of the angle between two directions *)
Definition cosangle (p q : place) : R := dot (position 1 (latitude p) (longitude p)) (position 1 (latitude q) (longitude q)).
Definition cdot (a b : C) : R := fst a * fst b + snd a * snd b.

(** ** calls *)
(** the object owns two matrices of degree four *)
Definition ready (h : mem R) (o : solid) : Prop := pair_sized h 4 (mcs o) /\ apart (mC (mcs o)) (mS (mcs o)) /\ apart (mS (mcs o)) (mC (mcs o)).
(** arrays of twelve numbers, bodies away from the centre of the Earth *)
Definition fits_call (c : call) (pm ps : place) : Prop := length (cdC c) = 12%nat /\ length (cdS c) = 12%nat /\ is_at (cmoon c) pm /\ is_at (csun c) ps.
