(** Specification of PLY files: which meshes can be stored, and what is stored of them. *)
From Coq Require Import ZArith NArith List String Ascii Bool.
From Verif.Lib Require Import Base Text Lines Runs Bytes File.
From Verif.Model Require Import Core Ply PlyFile.
From Verif.Spec Require Import Core Blocks Surface.
Import ListNotations.

(** Bytes per number: the digit in the name of the type *)
Definition item_size (code : string) : nat :=
  match dget code [("i1", 1); ("u1", 1); ("i2", 2); ("u2", 2); ("i4", 4); ("u4", 4); ("f4", 4); ("i8", 8); ("u8", 8); ("f8", 8)] with
  | Some n => n | None => 0 end.

(** Numbers of a type that are printed without blanks or number signs, and printed and stored exactly *)
Record exact_numbers (nk : numbers) (good : string -> nk -> Prop) : Prop := ExactNumbers {
  en_word : forall code v, good code v -> word (num_text nk code v) = true;
  en_hash : forall code v, good code v -> char_in "#" (num_text nk code v) = false;
  en_text : forall code v, good code v -> num_parse nk code (num_text nk code v) = v;
  en_width : forall big code v, good code v -> List.length (num_bytes nk big code v) = item_size code;
  en_byte : forall big code v, good code v -> Forall is_byte (num_bytes nk big code v);
  en_value : forall big code v, good code v -> num_value nk big code (num_bytes nk big code v) = v }.

(** The types of points and point data for which reader and writer have the same names: all but 16 bit integers *)
Definition point_types : list string := ["i1"; "i4"; "i8"; "u1"; "u2"; "u4"; "u8"; "f4"; "f8"].
(** The types of indices, with what is stored: 64 bit integers are stored with 32 bits *)
Definition index_type (code : string) (signed : bool) (width : nat) : Prop :=
  In (code, (signed, width))
    [("i1", (true, 1)); ("i4", (true, 4)); ("i8", (true, 4)); ("u1", (false, 1)); ("u2", (false, 2)); ("u4", (false, 4)); ("u8", (false, 8))].
(** Names made of letters, digits and underscores *)
Definition name_char (c : ascii) : Prop :=
  let n := nat_of_ascii c in (48 <= n /\ n <= 57) \/ (65 <= n /\ n <= 90) \/ (97 <= n /\ n <= 122) \/ n = 95.
Definition simple_name (s : string) : Prop :=
  s <> ""%string /\ Forall name_char (list_ascii_of_string s) /\ ~ In s ["return"; "file"; "print"]%string.

Section Spec.
Context {nk : numbers} (good : string -> nk -> Prop).
(** The data that is stored: arrays with one number for each point *)
Definition has_one_column (kv : string * parray nk) : bool := match pa_shape nk (snd kv) with [] => true | _ :: _ => false end.
Definition stored_data (m : ply_mesh nk) : dict (list nk) :=
  map (fun kv => (fst kv, pa_values nk (snd kv))) (filter has_one_column (pl_data nk m)).

Record storable (binary : bool) (m : ply_mesh nk) : Prop := Storable {
  sb_dim : pl_dim nk m = 3;
  sb_code : In (pl_code nk m) point_types;
  sb_some : pl_points nk m <> [];
  sb_points : Forall (fun p => List.length p = 3 /\ Forall (good (pl_code nk m)) p) (pl_points nk m);
  sb_data : forall name a, In (name, a) (pl_data nk m) -> pa_shape nk a = [] ->
    In (pa_code nk a) point_types /\ List.length (pa_values nk a) = List.length (pl_points nk m) /\ Forall (good (pa_code nk a)) (pa_values nk a) /\
    word name = true /\ ~ In name ["x"; "y"; "z"] /\ (binary = false -> simple_name name);
  sb_names : NoDup (map fst (stored_data m));
  sb_two : binary = false -> stored_data m <> [] -> 2 <= List.length (pl_points nk m);
  sb_cells : ply_faces (map snd (pl_cells nk m)) = [] \/
    exists code sg w bs, pl_cells nk m = map (pair code) bs /\ index_type code sg w /\
      Forall (fun b => Forall (Forall (fits sg w)) (bdata b)) bs /\
      Forall (fun c => if binary then 2 <= List.length c <= 255 else 1 <= List.length c <= 254) (ply_faces bs) /\
      (binary = false -> Forall (fun b => bdata b <> []) bs) }.

(** What is read back *)
Definition stored_mesh (m : ply_mesh nk) : ply_out nk :=
  PlyOut nk (pl_points nk m) (stored_data m)
    (regroup (map (fun f => (corner_type (List.length f), f)) (ply_faces (map snd (pl_cells nk m))))) [].
End Spec.

(** A text file whose faces carry numbers: [props] are the names and types of the numbers, each face has its corners and one number for
    each property *)
Section FaceFile.
Context {nk : numbers} (good : string -> nk -> Prop).
Definition face_file (points : list (list nk)) (props : list (string * string)) (faces : list (cell * list nk)) : list string :=
  ["ply"; "format ascii 1.0"; ("element vertex " ++ str_of_nat (List.length points))%string; "property double x"; "property double y"; "property double z";
   ("element face " ++ str_of_nat (List.length faces))%string; "property list uint8 int32 vertex_indices"]
  ++ map (fun p => ("property " ++ snd p ++ " " ++ fst p)%string) props ++ ["end_header"%string]
  ++ map (fun p => join " " (map (num_text nk "f8") p)) points
  ++ map (fun f => join " " (str_of_nat (List.length (fst f)) :: map str_of_Z (fst f) ++
       map (fun pv => num_text nk (match dget (snd (fst pv)) ply_to_numpy with Some c => c | None => "" end) (snd pv)) (combine props (snd f)))) faces.
Record readable (points : list (list nk)) (props : list (string * string)) (faces : list (cell * list nk)) : Prop := Readable {
  fr_some : points <> [];
  fr_points : Forall (fun p => List.length p = 3 /\ Forall (good "f8") p) points;
  fr_props : Forall (fun p => word (fst p) = true /\ fst p <> "vertex_indices"%string /\ In (snd p) (map fst ply_to_numpy)) props;
  fr_names : NoDup (map fst props);
  fr_any : faces <> [];
  fr_faces : Forall (fun f => 1 <= List.length (fst f) /\ List.length (fst f) + List.length props <= 253 /\ List.length (snd f) = List.length props /\
    Forall (fun pv => forall c, dget (snd (fst pv)) ply_to_numpy = Some c -> good c (snd pv)) (combine props (snd f))) faces }.
(** The blocks of the faces; the numbers of corners of the blocks; the values of property [j] *)
Definition face_blocks (faces : list (cell * list nk)) : list block :=
  regroup (map (fun f => (corner_type (List.length (fst f)), fst f)) faces).
Definition corners (b : block) : nat := List.length (hd [] (bdata b)).
Definition values_at (j : nat) (faces : list (cell * list nk)) : list nk :=
  flat_map (fun f => match nth_error (snd f) j with Some v => [v] | None => [] end) faces.
(** What should be read: the values of each property, split at the blocks *)
Definition face_mesh (points : list (list nk)) (props : list (string * string)) (faces : list (cell * list nk)) : ply_out nk :=
  PlyOut nk points [] (face_blocks faces)
    (map (fun jp => (fst (snd jp), data_for (face_blocks faces) (values_at (fst jp) faces))) (combine (seq 0 (List.length props)) props)).
End FaceFile.
