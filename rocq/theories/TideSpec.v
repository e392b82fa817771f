(** Tide models: what the accumulated coefficients should be, and what the matrices in memory represent. *)
From Coq Require Import Reals ZArith List Bool.
From Verif Require Import Base StorageModel StorageSpec MatrixModel MatrixSpec DoodsonModel DoodsonArgModel DoodsonArgSpec TideModel.
Import ListNotations.
Open Scope Z_scope.

(** ** harmonic sums *)
(** a constituent: Doodson number, in-phase and quadrature coefficients *)
Record constituent := mkCn { cdood : doodson; cosC : Z -> Z -> R; cosS : Z -> Z -> R; sinC : Z -> Z -> R; sinS : Z -> Z -> R }.
(** sum over the constituents of (cosine part) x + (sine part) y, where (x, y) belongs to the constituent *)
Fixpoint csum (l : list (constituent * (R * R))) (n m : Z) : R :=
  match l with [] => 0%R | (c, (x, y)) :: t => (cosC c n m * x + sinC c n m * y + csum t n m)%R end.
Fixpoint ssum (l : list (constituent * (R * R))) (n m : Z) : R :=
  match l with [] => 0%R | (c, (x, y)) :: t => (cosS c n m * x + sinS c n m * y + ssum t n m)%R end.
Definition at_angle (theta : doodson -> R) (l : list constituent) : list (constituent * (R * R)) :=
  map (fun c => (c, (cos (theta (cdood c)), sin (theta (cdood c))))) l.

(** ** memory *)
Section Mem.
  Context {A : Type}.
  (** a matrix for coefficients up to degree d *)
  Definition sized (h : mem A) (d : Z) (m : mat) : Prop :=
    valid h m /\ sch (st m) = LwTriCol /\ rows m = d + 1 /\ cols m = d + 1.
  Definition pair_sized (h : mem A) (d : Z) (p : pair) : Prop := sized h d (mC p) /\ sized h d (mS p).
  (** coefficients 0 <= m <= n <= d *)
  Definition shows (h : mem A) (d : Z) (m : mat) (f : Z -> Z -> cell A) : Prop :=
    forall n k, 0 <= k <= n -> n <= d -> get A h m n k = Ok (f n k).
  (** matrices that own different memory *)
  Definition apart (m n : mat) : Prop := ptr m = None \/ ptr m <> ptr n.
  Definition wave_mats (w : twave) : list mat := [mC (tcos w); mS (tcos w); mC (tsin w); mS (tsin w)].
  (** the accumulator owns its memory alone *)
  Definition acc_alone (acc : pair) (l : list twave) : Prop :=
    apart (mC acc) (mS acc) /\ apart (mS acc) (mC acc) /\
    forall w, In w l -> forall m, In m (wave_mats w) -> apart m (mC acc) /\ apart m (mS acc).
  (** all waves are stored up to degree d *)
  Definition waves_sized (h : mem A) (d : Z) (l : list twave) : Prop :=
    forall w, In w l -> forall m, In m (wave_mats w) -> sized h d m.
  (** matrices other than those of the accumulator are unchanged *)
  Definition only_acc (h : mem A) (acc : pair) (h' : mem A) : Prop :=
    forall m, valid h m -> apart m (mC acc) -> apart m (mS acc) ->
      valid h' m /\ forall n k, kept m (n, k) -> get A h' m n k = get A h m n k.
End Mem.

(** wave [w] in memory is constituent [c], up to degree d *)
Definition stores (h : mem R) (d : Z) (w : twave) (c : constituent) : Prop :=
  td w = cdood c /\
  (forall m, In m (wave_mats w) -> sized h d m) /\
  shows h d (mC (tcos w)) (fun i j => Some (cosC c i j)) /\ shows h d (mS (tcos w)) (fun i j => Some (cosS c i j)) /\
  shows h d (mC (tsin w)) (fun i j => Some (sinC c i j)) /\ shows h d (mS (tsin w)) (fun i j => Some (sinS c i j)).

(** ** ownership *)
Section Own.
  Context {M : Type}.
  (** every pointer points to a live model owned by nobody else *)
  Definition owned (s : gstate M) : Prop :=
    (forall i p, nth_error (gobjs M s) i = Some (Some (Some p)) -> exists m, nth_error (gheap M s) p = Some (GLive m)) /\
    (forall i j p, nth_error (gobjs M s) i = Some (Some (Some p)) -> nth_error (gobjs M s) j = Some (Some (Some p)) -> i = j).
  (** every live model has an owner *)
  Definition no_orphan (s : gstate M) : Prop :=
    forall p m, nth_error (gheap M s) p = Some (GLive m) -> exists i, nth_error (gobjs M s) i = Some (Some (Some p)).
  (** move assignment of an object without a model to an object with one *)
  Definition dangles (s : gstate M) (o : gop M) : Prop :=
    match o with
    | GMoveAssign _ i j => (exists p, nth_error (gobjs M s) i = Some (Some (Some p))) /\ nth_error (gobjs M s) j = Some (Some None)
    | _ => False
    end.
  Inductive ghist : gstate M -> Prop :=
  | ghist_nil : ghist (ginit M)
  | ghist_step s o s' : ghist s -> ~ dangles s o -> gstep M s o = Ok s' -> ghist s'.
  Definition legal_op (s : gstate M) (o : gop M) : Prop := gstep M s o <> Illegal.
  Definition model_of (s : gstate M) (i : nat) : option M :=
    match nth_error (gobjs M s) i with
    | Some (Some (Some p)) => match nth_error (gheap M s) p with Some (GLive m) => Some m | _ => None end
    | _ => None
    end.
End Own.

(** ** sizes *)
(** one size is contained in the other *)
Definition comparable (a b : Z * Z) : Prop := (fst a <= fst b /\ snd a <= snd b) \/ (fst b <= fst a /\ snd b <= snd a).

(** ** atlases *)
From Verif Require AtlasModel.
(** wave [tw] in memory has the sizes and the Doodson number of the atlas entry [w] *)
Definition wave_in {A} (h : mem A) (w : AtlasModel.wave) (tw : twave) : Prop :=
  td tw = AtlasModel.wd w /\ 0 <= AtlasModel.sdeg (AtlasModel.wcos w) /\ 0 <= AtlasModel.sdeg (AtlasModel.wsin w) /\
  pair_sized h (AtlasModel.sdeg (AtlasModel.wcos w)) (tcos tw) /\ pair_sized h (AtlasModel.sdeg (AtlasModel.wsin w)) (tsin tw).
(** every wave, in both parts, has degree d *)
Definition even (a : AtlasModel.atlas) (d : Z) : Prop :=
  forall w, In w a -> AtlasModel.sdeg (AtlasModel.wcos w) = d /\ AtlasModel.sdeg (AtlasModel.wsin w) = d.

(** ** histories of appended waves *)
(** memory changes that leave every matrix as it was (the new wave is built) *)
Definition keeps {A} (h h' : mem A) : Prop :=
  forall x, valid h x -> valid h' x /\ forall i j, kept x (i, j) -> get A h' x i j = get A h x i j.
(** [ahist h acc l]: the accumulator after appending the waves l, each with its degree and order *)
Inductive ahist {A} : mem A -> accum -> list (twave * (Z * Z)) -> Prop :=
| ah_new h h' acc : atm_default A h = Ok (h', acc) -> ahist h' acc []
| ah_append h acc l h1 w n m h2 acc' :
    ahist h acc l -> keeps h h1 -> 0 <= m <= n ->
    (forall x, In x (wave_mats w) -> sized h1 n x /\ apart x (mC (amats acc)) /\ apart x (mS (amats acc))) ->
    atm_grow A h1 acc n m = Ok (h2, acc') -> ahist h2 acc' (l ++ [(w, (n, m))])%list.
