(** Specification vocabulary for Abaqus files. *)
From Verif.Lib Require Import Base Text Lines.
From Verif.Model Require Import Core Abaqus.
From Verif.Spec Require Import Core Blocks.

Definition spaces (n : nat) : string := String.concat "" (repeat " " n).

(** A line of data: blank, or entries separated by commas, with any number of blanks before every entry and
    possibly a comma at the end. *)
Inductive data_line : Type :=
| Blank (n : nat)
| Row (pad : nat -> nat) (comma : bool) (entries : list string).
Definition line_text (d : data_line) : string :=
  match d with
  | Blank n => spaces n
  | Row pad comma es => (join "," (map (fun ke => spaces (pad (fst ke)) ++ snd ke)%string (enumerate es)) ++ (if comma then "," else ""))%string
  end.
Definition line_entries (d : data_line) : list (list string) := match d with Blank _ => [] | Row _ _ es => [es] end.
Definition entries (ds : list data_line) : list (list string) := flat_map line_entries ds.
Definition no_comma (d : data_line) : Prop := match d with Row _ comma es => comma = false | Blank _ => True end.
Definition nonempty_row (d : data_line) : Prop := match d with Row _ _ es => es <> [] | Blank _ => True end.

(** [i] is the position of the node with id [z]. *)
Definition resolves {F} (nodes : list (Z * list F)) (z i : Z) : Prop :=
  (0 <= i)%Z /\ exists xs, nth_error nodes (Z.to_nat i) = Some (z, xs).

(** An element section: type, layout, elements with their ids. *)
Record esection : Type := ESection { e_type : string; e_lines : list data_line; e_elems : list (Z * list Z) }.
Definition esection_ok (s : esection) : Prop :=
  exists ct n, dget (e_type s) abaqus_to_meshio_type = Some ct /\ dget ct num_nodes_per_cell = Some n /\
    Forall (fun e => length (snd e) = n) (e_elems s) /\
    Forall nonempty_row (e_lines s) /\
    concat (entries (e_lines s)) = flat_map (fun e => map str_of_Z (fst e :: snd e)) (e_elems s).
Definition esection_text (s : esection) : list string := ("*ELEMENT, TYPE=" ++ e_type s)%string :: map line_text (e_lines s).
Definition abaqus_type (t : string) : string := match dget t abaqus_to_meshio_type with Some ct => ct | None => "" end.

(** A name that survives in a parameter of a keyword line. *)
Definition set_name (s : string) : Prop := strip s = s /\ char_in "," s = false /\ char_in "=" s = false.

(** Cells that can be written. *)
Definition abaqus_cells (npoints : nat) (b : block) : Prop :=
  exists an n, dget (btype b) meshio_to_abaqus_type = Some an /\ dget (btype b) num_nodes_per_cell = Some n /\
    Forall (fun c => length c = n /\ Forall (fun i => 0 <= i < Z.of_nat npoints)%Z c) (bdata b).

(** Only the last of the parts of a set that have members. *)
Fixpoint last_part (v : list (list Z)) : option (list (list Z)) :=
  match v with
  | [] => None
  | p :: v' => match last_part v' with
               | Some r => Some ([] :: r)
               | None => match p with [] => None | _ => Some (p :: map (fun _ => []) v') end
               end
  end.
(** All members of the set lie in one block. *)
Definition one_block (v : list (list Z)) : Prop := exists a p b, v = repeat [] a ++ p :: repeat [] b /\ p <> [].

(** [part] lists the elements of the section with an id in [ids], in the order of [ids]. *)
Definition members (ids : list Z) (s : esection) (part : list Z) : Prop :=
  Forall2 (fun z i => 0 <= i /\ exists c, nth_error (e_elems s) (Z.to_nat i) = Some (z, c))%Z
    (filter (fun z => existsb (Z.eqb z) (map fst (e_elems s))) ids) part.
(** A section for a set, with ids in any layout: name, lines, ids. *)
Definition set_section (key : string) (s : string * (list data_line * list (list Z))) : list string :=
  ("*" ++ key ++ ", " ++ key ++ "=" ++ fst s)%string :: map line_text (fst (snd s)).
Definition set_section_ok (s : string * (list data_line * list (list Z))) : Prop :=
  set_name (fst s) /\ entries (fst (snd s)) = map (map str_of_Z) (snd (snd s)) /\
  Forall (fun r => r <> [] /\ Forall (fun z => 0 <= z <= 2147483647)%Z r) (snd (snd s)).
