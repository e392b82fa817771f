(** A file of ocean pole loading coefficients on a grid, and bilinear interpolation in a cell. *)
From Coq Require Import Ascii String Reals ZArith List Bool.
From Verif Require Import Base CString FromChars IcgemSpec AtlasSpec GridModel GridSpec PoleModel SiteModel.
Import ListNotations.
Open Scope Z_scope.

(** key, anything but '=', '=', blanks, a number *)
Definition value_line {A} (scan : list Z -> option A * list Z) (key line : list Z) (v : A) : Prop := exists pre post,
  line = (key ++ pre ++ [61] ++ post)%list /\ ~ In 61 key /\ ~ In 61 pre /\ fst (scan (skip_blanks post)) = Some v.
Definition title_line (title line : list Z) : Prop := exists rest, line = (title ++ rest)%list.
Definition short (line : list Z) : Prop := (length line <= 255)%nat.
Section File.
  Variable sdbl : list Z -> option R * list Z.
  (** 14 header lines, then a line for every node, row by row from the lower left node *)
  Record desai_file (file : list (list Z)) (g : grid) (val : Z -> Z -> desai) : Prop := {
    f_short : Forall short file;
    f_small : small g; f_ascending : ascending g;
    f_nx : forall l, nth_error file 3 = Some l -> value_line scan_i64 (chars "Number_longitude_Grid_Points") l (nx g);
    f_x0 : forall l, nth_error file 4 = Some l -> value_line sdbl (chars "First_longitude_degrees") l (x0 g);
    f_xl : forall l, nth_error file 5 = Some l -> exists v, value_line sdbl (chars "Last_longitude_degrees") l v;
    f_dx : forall l, nth_error file 6 = Some l -> value_line sdbl (chars "Longitude_step_degrees") l (dx g);
    f_ny : forall l, nth_error file 7 = Some l -> value_line scan_i64 (chars "Number_latitude_grid_points") l (ny g);
    f_y0 : forall l, nth_error file 8 = Some l -> value_line sdbl (chars "First_latitude_degrees") l (y0 g);
    f_yl : forall l, nth_error file 9 = Some l -> exists v, value_line sdbl (chars "Last_latitude_degrees") l v;
    f_dy : forall l, nth_error file 10 = Some l -> value_line sdbl (chars "Latitude_step_degrees") l (dy g);
    f_t1 : forall l, nth_error file 11 = Some l -> title_line title1 l;
    f_t2 : forall l, nth_error file 12 = Some l -> title_line title2 l;
    f_length : Z.of_nat (length file) = 14 + nx g * ny g;
    f_data : forall i j, on_grid g i j -> exists line, nth_error file (14 + Z.to_nat (linear Y g i j)) = Some line /\
      number_line sdbl line [fst (node g i j); snd (node g i j); rR (val i j); rI (val i j); nR (val i j); nI (val i j); eR (val i j); eI (val i j)] }.
End File.

(** the cell is bounded by four nodes *)
Definition inner (g : grid) (i j : Z) : Prop := 0 <= i < nx g - 1 /\ 0 <= j < ny g - 1.
(** bilinear interpolation in the cell (i, j) *)
Definition mix (u v a b c d : R) : R := ((1 - u) * (1 - v) * a + u * (1 - v) * b + (1 - u) * v * c + u * v * d)%R.
Definition bilinear (g : grid) (f : Z -> Z -> R) (i j : Z) (x y : R) : R :=
  let u := ((x - fst (node g i j)) / dx g)%R in let v := ((y - snd (node g i j)) / dy g)%R in
  mix u v (f i j) (f (i + 1) j) (f i (j + 1)) (f (i + 1) (j + 1)).
Definition bilinear6 (g : grid) (val : Z -> Z -> desai) (i j : Z) (x y : R) : desai :=
  let b p := bilinear g (fun i j => p (val i j)) i j x y in mkDs (b rR) (b rI) (b nR) (b nI) (b eR) (b eI).
(** the point at which the library evaluates: longitude and latitude in degrees, the longitude shifted by 180 degrees *)
Definition px (s : site) : R := (deg (slon s) + 180)%R.
Definition py (s : site) : R := deg (slat s).
(** a site in an inner cell, or outside the grid *)
Definition placed (g : grid) (s : site) (o : option (Z * Z)) : Prop :=
  match o with
  | Some (i, j) => inner g i j /\ in_cell g i j (px s) (py s)
  | None => exists i j, ~ on_grid g i j /\ in_cell g i j (px s) (py s)
  end.
(** the sites up to the first one outside; code 1 if there is one *)
Fixpoint served (g : grid) (val : Z -> Z -> desai) (l : list (site * option (Z * Z))) : list desai * Z :=
  match l with
  | [] => ([], 0)
  | (s, Some (i, j)) :: t => let (r, e) := served g val t in (bilinear6 g val i j (px s) (py s) :: r, e)
  | (s, None) :: _ => ([], 1)
  end.
(** numbers read one after the other from a text *)
Fixpoint reads_numbers (sdbl : list Z -> option R * list Z) (text : list Z) (vs : list R) : Prop :=
  match vs with [] => True | v :: t => exists r, sdbl (skip_blanks text) = (Some v, r) /\ reads_numbers sdbl r t end.
(** the data line of the node with number k replaced *)
Definition replace_line (file : list (list Z)) (k : Z) (line : list Z) : list (list Z) :=
  (firstn (14 + Z.to_nat k) file ++ line :: skipn (15 + Z.to_nat k) file)%list.
(** the node is a corner of a cell *)
Definition corner_of (c d : Z * Z) : Prop := fst c <= fst d <= fst c + 1 /\ snd c <= snd d <= snd c + 1.
