(** Specification vocabulary for Abaqus files that include other files. *)
From Verif.Lib Require Import Base Text Lines.
From Verif.Model Require Import Core Abaqus.
From Verif.Spec Require Import Core Abaqus.

(** A line that includes a file, with any number of blanks after the comma and after the equals sign. *)
Definition include_line (a b : nat) (name : string) : string := ("*INCLUDE," ++ spaces a ++ "INPUT=" ++ spaces b ++ name)%string.
Definition file_name (name : string) : Prop := strip name = name /\ char_in "=" name = false.
(** A comment, or a line of a section that has nothing to do with the mesh. *)
Definition other_line (l : string) : Prop :=
  startswith l "**" = true \/ ~ In (keyword l) ["NODE"; "ELEMENT"; "NSET"; "ELSET"; "INCLUDE"].

(** The part of a file after its own mesh: lines that include files, in the order of [names], between other lines. *)
Inductive includes : list string -> list string -> Prop :=
| inc_nil : includes [] []
| inc_other l ls names : other_line l -> includes ls names -> includes (l :: ls) names
| inc_file a b name ls names : file_name name -> includes ls names -> includes (include_line a b name :: ls) (name :: names).
Definition at_section (ls : list string) : Prop := match ls with [] => True | l :: _ => startswith l "*" = true end.

(** Where an included file is: there is a file with the name as it stands; otherwise, for a relative name, it is
    beside the file that includes it. *)
Definition located (fs : string -> option (list string)) (cur name path : string) : Prop :=
  fs name <> None /\ path = name \/
  fs name = None /\ startswith name "/" = false /\
    (char_in "/" cur = false /\ path = name \/
     exists dir base, cur = (dir ++ "/" ++ base)%string /\ char_in "/" base = false /\ path = (dir ++ "/" ++ name)%string).

Section Assembly.
Context {fl : floats}.

(** [assembly depth fs path ms]: the file and all files that it includes, to a depth of [depth], in the order in
    which they are included; [ms] are the meshes that these files hold on their own. *)
Fixpoint assembly (depth : nat) (fs : string -> option (list string)) (path : string) (ms : list (abq_mesh fl)) : Prop :=
  match depth with
  | O => False
  | S depth' => exists own tail names m0 mss,
      fs path = Some (own ++ tail) /\ at_section tail /\ includes tail names /\
      read_abaqus (fun _ => Err OSError) own = Ok m0 /\
      Forall2 (fun name sub => exists p, located fs path name p /\ assembly depth' fs p sub) names mss /\
      ms = m0 :: concat mss
  end.

(** A mesh with points of dimension [d]; a file without points holds no mesh. *)
Definition part_ok (d : nat) (m : abq_mesh fl) : Prop :=
  Forall (fun p => length p = d) (ab_points m) /\ (ab_points m = [] -> ab_cells m = [] /\ ab_psets m = []).
Definition indices_ok (m : abq_mesh fl) : Prop :=
  Forall (fun b => Forall (Forall (fun i => 0 <= i < Z.of_nat (length (ab_points m)))%Z) (bdata b)) (ab_cells m) /\
  Forall (fun kv => Forall (fun i => 0 <= i < Z.of_nat (length (ab_points m)))%Z (snd kv)) (ab_psets m).

Definition coords (pts : list (list fl)) (c : list Z) : list (option (list fl)) := map (fun i => nth_error pts (Z.to_nat i)) c.
(** The blocks of a mesh with the coordinates in place of the indices. *)
Definition shapes (m : abq_mesh fl) : list (string * list (list (option (list fl)))) :=
  map (fun b => (btype b, map (coords (ab_points m)) (bdata b))) (ab_cells m).
(** The coordinates of the points in the set [k]; of several files with this set, the last one counts. *)
Definition set_coords (m : abq_mesh fl) (k : string) : option (list (option (list fl))) := option_map (coords (ab_points m)) (dget k (ab_psets m)).
Definition last_some {A} (l : list (option A)) : option A := fold_left (fun a b => match b with Some _ => b | None => a end) l None.

(** The blocks and the sets with the indices of the points moved by the number of points in the files before. *)
Definition move (n : nat) (l : list Z) : list Z := map (fun i => i + Z.of_nat n)%Z l.
Fixpoint placed (n : nat) (ms : list (abq_mesh fl)) : list block :=
  match ms with
  | [] => []
  | m :: ms' => map (fun b => Block (btype b) (map (move n) (bdata b))) (ab_cells m) ++ placed (n + length (ab_points m)) ms'
  end.
Fixpoint last_set (k : string) (n : nat) (ms : list (abq_mesh fl)) : option (list Z) :=
  match ms with
  | [] => None
  | m :: ms' => match last_set k (n + length (ab_points m)) ms' with
                | Some v => Some v
                | None => option_map (move n) (dget k (ab_psets m))
                end
  end.
End Assembly.

(** The same sets with the same members, and no members in further blocks of cells. *)
Definition same_sets (old new : dict (list csval)) : Prop :=
  Forall2 (fun a b => fst b = fst a /\ exists n, snd b = snd a ++ repeat (Idx []) n) old new.
