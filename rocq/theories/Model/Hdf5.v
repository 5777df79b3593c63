(** HDF5 files as h5py presents them: a tree of groups and datasets with attributes.  The members of a group are iterated in the order
    of their names.  Simplifications: the file is the tree (compression and storage are not modelled); absolute paths, empty path
    components and the component "." are not modelled; attributes are integers or strings. *)
From Verif.Lib Require Import Base Text.
From Verif.Model Require Import Numpy.

Inductive hattr : Type := AInt (z : Z) | AStr (s : string).
Inductive h5 (F : Type) : Type :=
| Group (attrs : dict hattr) (items : list (string * h5 F))
| Dataset (attrs : dict hattr) (v : hval F).
Arguments Group {F} _ _.
Arguments Dataset {F} _ _.

Section Hdf5.
Context {F : Type}.

(** Iteration over a group: [g.items()], sorted by name (the bytes are compared). *)
Fixpoint insert_item {A} (x : string * A) (l : list (string * A)) : list (string * A) :=
  match l with
  | [] => [x]
  | y :: l' => if String.leb (fst x) (fst y) then x :: l else y :: insert_item x l'
  end.
Definition sorted_items {A} (l : list (string * A)) : list (string * A) := fold_right insert_item [] l.
Definition h5_items (x : h5 F) : result (list (string * h5 F)) :=
  match x with Group _ its => Ok (sorted_items its) | Dataset _ _ => Err AttributeError end.
(** [g[name]] *)
Definition h5_get (x : h5 F) (name : string) : result (h5 F) :=
  match x with Group _ its => of_option KeyError (dget name its) | Dataset _ _ => Err ValueError end.
(** [name in g] *)
Definition h5_mem (x : h5 F) (name : string) : bool :=
  match x with Group _ its => dmem name its | Dataset _ _ => false end.
(** [d[()]] *)
Definition h5_value (x : h5 F) : result (hval F) := match x with Dataset _ v => Ok v | Group _ _ => Err TypeError end.
Definition h5_attrs (x : h5 F) : dict hattr := match x with Group a _ => a | Dataset a _ => a end.
Definition attr_int (x : h5 F) (name : string) : result Z :=
  match dget name (h5_attrs x) with Some (AInt z) => Ok z | Some _ => Err TypeError | None => Err KeyError end.
Definition attr_str (x : h5 F) (name : string) : result string :=
  match dget name (h5_attrs x) with Some (AStr s) => Ok s | Some _ => Err TypeError | None => Err KeyError end.

(** Changing the member at a path; groups on the way are created. *)
Fixpoint edit (p : list string) (f : option (h5 F) -> result (h5 F)) (o : option (h5 F)) : result (h5 F) :=
  match p with
  | [] => f o
  | n :: p' =>
      match o with
      | None => do y <- edit p' f None; Ok (Group [] [(n, y)])
      | Some (Group a its) => do y <- edit p' f (dget n its); Ok (Group a (dset n y its))
      | Some (Dataset _ _) => Err ValueError
      end
  end.
(** [g.create_group(name)], [g.create_dataset(name, data)]: ValueError if the name exists; slashes in the name make groups. *)
Definition h5_create (name : string) (x : h5 F) (g : h5 F) : result (h5 F) :=
  edit (split_char "/" name) (fun o => match o with None => Ok x | Some _ => Err ValueError end) (Some g).
(** Creating members one after the other *)
Fixpoint h5_create_all (l : list (string * h5 F)) (g : h5 F) : result (h5 F) :=
  match l with
  | [] => Ok g
  | (n, x) :: l' => do g1 <- h5_create n x g; h5_create_all l' g1
  end.
End Hdf5.
