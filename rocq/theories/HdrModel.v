(** script/cppspice/c2cpp_header.py: puts C headers into an extern C block. Conventions in PyModel. The directory of the headers is not the
    working directory. *)
From Coq Require Import Ascii String ZArith List Bool.
From Verif Require Import Base CString PyModel.
Import ListNotations.
Open Scope Z_scope.

(** what a name stands for, and the scratch file in the working directory *)
Inductive entry := File (s : list Z) | Dir.
Record disk := mkD { inc : list Z -> option entry; scratch : option (list Z) }.
Definition put (i : list Z -> option entry) (n : list Z) (e : option entry) (m : list Z) : option entry := if text_eqb m n then e else i m.

(** lines 7-15 *)
Definition head : list Z := (chars "#ifdef __cplusplus" ++ [10] ++ chars "extern ""C"" {" ++ [10] ++ chars "#endif" ++ [10])%list.
Definition tail : list Z := (chars "    #ifdef __cplusplus" ++ [10] ++ chars "}" ++ [10] ++ chars "#endif" ++ [10])%list.
(** str.endswith *)
Definition endswith (e s : list Z) : bool := text_eqb e (skipn (length s - length e) s).
(** print(s, file=fout) *)
Definition print (s : list Z) : list Z := (s ++ [10])%list.
(** lines 21-25 *)
Definition wrap (s : list Z) : list Z := (print head ++ concat (map (fun l => print (strip l)) (lines s)) ++ print tail)%list.
(** lines 18-27; [same]: both directories are in one file system. open fails for a directory, os.rename for a directory as the target and
    between file systems; what has been written is in the scratch file then *)
Definition convert (same : bool) (d : disk) (f : list Z) : disk * option exn :=
  if endswith (chars ".h") f then
    match inc d f with
    | Some (File s) =>
        let b := (f ++ chars ".cvers")%list in
        match inc d b with
        | Some Dir => (mkD (inc d) (Some (wrap s)), Some OSError)
        | _ =>
            let i := put (put (inc d) b (Some (File s))) f None in
            if same then (mkD (put i f (Some (File (wrap s)))) None, None) else (mkD i (Some (wrap s)), Some OSError)
        end
    | _ => (mkD (inc d) (Some (print head)), Some OSError)
    end
  else (d, None).
(** line 17: [order]: os.listdir *)
Fixpoint run (same : bool) (d : disk) (order : list (list Z)) : disk * option exn :=
  match order with
  | [] => (d, None)
  | f :: r => match convert same d f with (d', None) => run same d' r | x => x end
  end.
