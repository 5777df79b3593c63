(** Model of src/meshio/dolfin/_dolfin.py.  A document is its tree of elements: turning a tree into text and back (xml.etree, and the
    format strings of [_write_mesh], whose attribute values are numbers and need no escaping) is not modelled. *)
From Verif.Lib Require Import Base Text Lines.
From Verif.Model Require Import Core Tables Info.

Inductive xml : Type := Elem (tag : string) (attrs : dict string) (children : list xml).
Definition xtag (x : xml) : string := let 'Elem t _ _ := x in t.
Definition xattrs (x : xml) : dict string := let 'Elem _ a _ := x in a.
Definition xchildren (x : xml) : list xml := let 'Elem _ _ c := x in c.
(** The start events of [iterparse]: the elements in document order *)
Fixpoint starts (x : xml) : list (string * dict string) :=
  let 'Elem t a cs := x in (t, a) :: concat (map starts cs).

(** The data of one block of cells with its dtype.  Simplification: one number per cell. *)
Inductive dolfin_data (F : Type) : Type := DInt (l : list Z) | DUint (l : list Z) | DFloat (l : list F) | DOther (n : nat).
Arguments DInt {F} _.
Arguments DUint {F} _.
Arguments DFloat {F} _.
Arguments DOther {F} _.
Record dolfin_mesh (F : Type) : Type := DolfinMesh {
  do_dim : nat; do_points : list (list F); do_cells : list block; do_data : dict (list (dolfin_data F)) }.
Arguments DolfinMesh {F} _ _ _ _.
Arguments do_dim {F} _.
Arguments do_points {F} _.
Arguments do_cells {F} _.
Arguments do_data {F} _.
(** A mesh that was read: entries of arrays that no element has set (numpy.empty) are None. *)
Inductive filled (F : Type) : Type := FInt (l : list (option Z)) | FUint (l : list (option Z)) | FFloat (l : list (option F)).
Arguments FInt {F} _.
Arguments FUint {F} _.
Arguments FFloat {F} _.
Record dolfin_out (F : Type) : Type := DolfinOut {
  dr_points : list (option (list F)); dr_type : string; dr_cells : list (option cell); dr_data : dict (list (filled F)) }.
Arguments DolfinOut {F} _ _ _ _.
Arguments dr_points {F} _.
Arguments dr_type {F} _.
Arguments dr_cells {F} _.
Arguments dr_data {F} _.

Section Dolfin.
Context {fl : floats}.

(** ** Writing *)
(** src/meshio/dolfin/_dolfin.py:135-181 [_write_mesh] *)
Definition vertex (ip : nat * list fl) : xml :=
  Elem "vertex" (("index", str_of_nat (fst ip)) :: combine ["x"; "y"; "z"] (map ffmt (snd ip))) [].
Definition cell_elem (t : string) (ic : nat * cell) : xml :=
  Elem t (("index", str_of_nat (fst ic)) :: map (fun kc => (("v" ++ str_of_nat (fst kc))%string, str_of_Z (snd kc))) (enumerate (snd ic))) [].
Definition write_dolfin_mesh (t : string) (m : dolfin_mesh fl) : result xml :=
  let stripped := filter (fun b => String.eqb (btype b) t) (do_cells m) in
  if negb (Nat.eqb (do_dim m) 2 || Nat.eqb (do_dim m) 3) then Err WriteError else
  do ct <- of_option KeyError (dget t meshio_to_dolfin_type);
  let cells := concat (map bdata stripped) in
  Ok (Elem "dolfin" [("nsmap", "{'dolfin': 'https://fenicsproject.org/'}")]
       [Elem "mesh" [("celltype", ct); ("dim", str_of_nat (do_dim m))]
         [Elem "vertices" [("size", str_of_nat (length (do_points m)))] (map vertex (enumerate (do_points m)));
          Elem "cells" [("size", str_of_nat (length cells))] (map (cell_elem ct) (enumerate cells))]]).
(** src/meshio/dolfin/_dolfin.py:184-213 [_numpy_type_to_dolfin_type], [_write_cell_data].  [repr] of a number is its text: NumPy 1.
    The namespace attribute is a dictionary in the code; it is left out. *)
Definition data_type_values (d : dolfin_data fl) : result (string * list string) :=
  match d with
  | DInt l => Ok ("int", map str_of_Z l)
  | DUint l => Ok ("uint", map str_of_Z l)
  | DFloat l => Ok ("float", map ffmt l)
  | DOther _ => Err WriteError
  end.
Definition entity (iv : nat * string) : xml := Elem "entity" [("index", str_of_nat (fst iv)); ("value", snd iv)] [].
Definition write_dolfin_data (dim : nat) (d : dolfin_data fl) : result xml :=
  do tv <- data_type_values d;
  Ok (Elem "dolfin" [] [Elem "mesh_function" [("type", fst tv); ("dim", str_of_nat dim); ("size", str_of_nat (length (snd tv)))]
                          (map entity (enumerate (snd tv)))]).
(** src/meshio/dolfin/_dolfin.py:219-236 [write].  A file system: the documents by the names of the files in one directory.  The file
    that is written is [stem].xml.  [flat]: all third coordinates are zero (line 235). *)
Definition dolfin_type (m : dolfin_mesh fl) : result string :=
  if existsb (fun b => String.eqb (btype b) "tetra") (do_cells m) then Ok "tetra"
  else if existsb (fun b => String.eqb (btype b) "triangle") (do_cells m) then Ok "triangle"
  else Err WriteError.
Definition data_file (stem name : string) : string := (stem ++ "_" ++ name ++ ".xml")%string.
Fixpoint write_dolfin_blocks (dim : nat) (file : string) (ds : list (dolfin_data fl)) (fs : dict xml) : result (dict xml) :=
  match ds with
  | [] => Ok fs
  | d :: ds' => do x <- write_dolfin_data dim d; write_dolfin_blocks dim file ds' (dset file x fs)
  end.
Fixpoint write_dolfin_names (dim : nat) (stem : string) (cd : dict (list (dolfin_data fl))) (fs : dict xml) : result (dict xml) :=
  match cd with
  | [] => Ok fs
  | (name, ds) :: cd' => do fs1 <- write_dolfin_blocks dim (data_file stem name) ds fs; write_dolfin_names dim stem cd' fs1
  end.
Definition write_dolfin (flat : bool) (stem : string) (m : dolfin_mesh fl) (fs : dict xml) : result (dict xml) :=
  do t <- dolfin_type m;
  do x <- write_dolfin_mesh t m;
  write_dolfin_names (if Nat.eqb (do_dim m) 2 || flat then 2 else 3) stem (do_data m) (dset (stem ++ ".xml")%string x fs).

(** ** Reading *)
Definition int_attr (k : string) (a : dict string) : result Z :=
  do s <- of_option KeyError (dget k a); of_option ValueError (parse_Z s).
Definition empty_array {A} (n : Z) : result (list (option A)) := if (n <? 0)%Z then Err ValueError else Ok (repeat None (Z.to_nat n)).
(** [a[k] = v] *)
Definition set_item {A} (k : Z) (v : A) (l : list (option A)) : result (list (option A)) :=
  do i <- np_index (length l) k; Ok (upd i (Some v) l).
Record dolfin_state : Type := DolfinState {
  ds_dim : option Z; ds_points : option (list (option (list fl))); ds_type : option (string * nat); ds_cells : option (list (option cell)) }.
(** src/meshio/dolfin/_dolfin.py:32-78: one element.  Simplification: a dimension other than 2 and 3 is a ValueError (the rows of two
    coordinates do not fit the array). *)
Definition dolfin_elem (st : dolfin_state) (e : string * dict string) : result dolfin_state :=
  let '(tag, a) := e in
  let 'DolfinState dim pts ty cs := st in
  if String.eqb tag "dolfin" then Ok st
  else if String.eqb tag "mesh" then
    do d <- int_attr "dim" a;
    do ct <- of_option KeyError (dget "celltype" a);
    do t <- of_option KeyError (dget ct dolfin_to_meshio_type);
    Ok (DolfinState (Some d) pts (Some t) cs)
  else if String.eqb tag "vertices" then
    match dim with
    | None => Err ReadError
    | Some d => do n <- int_attr "size" a; do p <- empty_array n; Ok (DolfinState dim (Some p) ty cs)
    end
  else if String.eqb tag "vertex" then
    match dim, pts with
    | Some d, Some p =>
        do k <- int_attr "index" a;
        do xs <- mapM (fun key => of_option KeyError (dget key a)) (if Z.eqb d 3 then ["x"; "y"; "z"] else ["x"; "y"]);
        if Z.eqb d 2 || Z.eqb d 3 then
          do v <- parse_floats xs; do p' <- set_item k v p; Ok (DolfinState dim (Some p') ty cs)
        else Err ValueError
    | _, _ => Err ReadError
    end
  else if String.eqb tag "cells" then
    match ty with
    | None => Err ReadError
    | Some t => do n <- int_attr "size" a; do c <- empty_array n; Ok (DolfinState dim pts ty (Some c))
    end
  else if smem tag ["triangle"; "tetrahedron"] then
    do k <- int_attr "index" a;
    match cs, ty with
    | Some c, Some t =>
        do vs <- mapM (fun i => int_attr ("v" ++ str_of_nat i)%string a) (seq 0 (snd t));
        do c' <- set_item k vs c; Ok (DolfinState dim pts ty (Some c'))
    | _, _ => Err AssertionError
    end
  else Ok st.
Fixpoint foldR {A B} (f : A -> B -> result A) (l : list B) (a : A) : result A :=
  match l with [] => Ok a | x :: l' => do a' <- f a x; foldR f l' a' end.
Definition read_dolfin_mesh (x : xml) : result dolfin_state := foldR dolfin_elem (starts x) (DolfinState None None None None).

(** src/meshio/dolfin/_dolfin.py:98-103: the name of the data in a file, None if it is not a file with data of [stem].  Simplification:
    the characters of [stem] stand for themselves in the regular expression. *)
Fixpoint until_dot (s : string) : string * string :=
  match s with
  | EmptyString => ("", "")
  | String a s' => if Ascii.eqb a "." then ("", s) else let r := until_dot s' in (String a (fst r), snd r)
  end%string.
Fixpoint drop_prefix (p s : string) : option string :=
  match p, s with
  | EmptyString, _ => Some s
  | String a p', String b s' => if Ascii.eqb a b then drop_prefix p' s' else None
  | String _ _, EmptyString => None
  end.
Definition data_name (stem file : string) : option string :=
  match drop_prefix (stem ++ "_") file with
  | None => None
  | Some r => let '(n, e) := until_dot r in if String.eqb n "" then None else if String.prefix ".xml" e then Some n else None
  end.
(** src/meshio/dolfin/_dolfin.py:105-130: one file.  ValueError: a value that is not a number of that type. *)
Fixpoint fill {A} (parse : string -> result A) (es : list xml) (l : list (option A)) : result (list (option A)) :=
  match es with
  | [] => Ok l
  | e :: es' =>
      if negb (String.eqb (xtag e) "entity") then Err ReadError else
      do k <- int_attr "index" (xattrs e);
      do s <- of_option KeyError (dget "value" (xattrs e));
      do v <- parse s;
      do l' <- set_item k v l; fill parse es' l'
  end.
Definition parse_uint (s : string) : result Z :=
  do z <- of_option ValueError (parse_Z s); if (z <? 0)%Z then Err OverflowError else Ok z.
Definition read_dolfin_data (x : xml) : result (filled fl) :=
  match xchildren x with
  | [f] =>
      if negb (String.eqb (xtag f) "mesh_function") then Err ReadError else
      do n <- int_attr "size" (xattrs f);
      do t <- of_option KeyError (dget "type" (xattrs f));
      if String.eqb t "int" then
        do e <- empty_array n; do l <- fill (fun s => of_option ValueError (parse_Z s)) (xchildren f) e; Ok (FInt l)
      else if String.eqb t "uint" then
        do e <- empty_array n; do l <- fill parse_uint (xchildren f) e; Ok (FUint l)
      else if String.eqb t "float" then
        do e <- empty_array n; do l <- fill (fun s => of_option ValueError (fparse s)) (xchildren f) e; Ok (FFloat l)
      else Err KeyError
  | _ => Err ReadError
  end.
(** src/meshio/dolfin/_dolfin.py:83-132 [_read_cell_data]; [listing]: [os.listdir], in any order *)
Fixpoint read_dolfin_files (stem : string) (listing : list string) (fs : dict xml) (cd : dict (list (filled fl))) : result (dict (list (filled fl))) :=
  match listing with
  | [] => Ok cd
  | f :: fs' =>
      match data_name stem f with
      | None => read_dolfin_files stem fs' fs cd
      | Some n => do x <- of_option OSError (dget f fs); do d <- read_dolfin_data x;
                  read_dolfin_files stem fs' fs (dset n (match dget n cd with Some l => l | None => [] end ++ [d]) cd)
      end
  end.
Definition filled_length (d : filled fl) : nat := match d with FInt l | FUint l => length l | FFloat l => length l end.
(** src/meshio/dolfin/_dolfin.py:129-132 [read], with the checks of [Mesh] (src/meshio/_mesh.py:169-184): one array per block, one entry
    per cell *)
Definition read_dolfin (stem : string) (listing : list string) (fs : dict xml) : result (dolfin_out fl) :=
  do x <- of_option OSError (dget (stem ++ ".xml")%string fs);
  do st <- read_dolfin_mesh x;
  do cd <- read_dolfin_files stem listing fs [];
  match ds_points st, ds_type st, ds_cells st with
  | Some p, Some t, Some c =>
      if forallb (fun kv => match snd kv with [d] => Nat.eqb (filled_length d) (length c) | _ => false end) cd
      then Ok (DolfinOut p (fst t) c cd) else Err ValueError
  | _, _, _ => Err TypeError
  end.
End Dolfin.
