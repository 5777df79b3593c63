(** C87: comments and sections with other names in MSH text files do not change the mesh. *)
From Coq Require Import ZArith List String Ascii Bool Lia.
From Verif.Lib Require Import Base Facts Text Lines LinesFacts.
From Verif.Model Require Import Core Gmsh Gmsh22 Port Msh41 Msh40.
From Verif.Spec Require Import Core Blocks Gmsh Gmsh22 Msh41 Msh40 Msh2File GmshFile Msh40File GmshSkip.
From Verif.Proofs Require Import GmshSkip GmshMixed GmshMixed40.
From Verif.Props Require Import Msh2File GmshFile Msh40File.
Import Model.Gmsh Model.Gmsh22.
Import ListNotations.

(** Any number of comments in front of any text, of any version. *)
Theorem C87_comments cs ls : Forall (fun c => closed ("Comments"%string, c)) cs -> read_header (comments cs ++ ls) = read_header ls.
Proof. apply header_comments. Qed.
Print Assumptions C87_comments.

(** MSH 2.2: sections with other names directly after the header, whatever follows: the outcome is the same mesh or the
    same exception.  ([OutOfFuel] is no exception of the program: it marks runs whose number of steps the model bounds.) *)
Theorem C87_sections_partial {fl : floats} ss (body : list string) r : Forall other ss -> read22 (fl := fl) body = r -> r <> Err OutOfFuel ->
  read22 (fl := fl) (flat_map section_lines ss ++ body) = r.
Proof. apply sections_skipped. Qed.
Print Assumptions C87_sections_partial.

(** MSH 2.2: files of Gmsh with comments in front and sections with other names anywhere between the sections
    ([mixed22]) are read as C83 says. *)
Theorem C87_file22 {fl : floats} (f : file22 fl) cs (u : nat -> list (string * list string)) : floats_ok fl -> file22_ok f ->
  Forall (fun c => closed ("Comments"%string, c)) cs -> (forall i, Forall other (u i)) ->
  exists body names, read_header (comments cs ++ mixed22 u f) = Ok ("2.2"%string, true, body) /\
    (forall k, dget k names = dget k (f2_names f)) /\
    read22 body = if tags_agree 0 f && tags_agree 1 f then Ok (file22_mesh f names) else Err ValueError.
Proof. intros H W Hc Hu. rewrite C87_comments by exact Hc. exact (mixed22_read H u Hu f W). Qed.
Print Assumptions C87_file22.

(** MSH 4.1: the same ([mixed41]), as C82 says. *)
Theorem C87_file41 {fl : floats} (g : gfile fl) cs (u : nat -> list (string * list string)) : floats_ok fl -> gfile_ok g ->
  Forall (fun c => closed ("Comments"%string, c)) cs -> (forall i, Forall other (u i)) ->
  exists names, (forall k, dget k names = dget k (gf_names g)) /\
    read41 ascii_port (comments cs ++ mixed41 u g) = if groups_agree g then Ok (file_mesh g names) else Err ValueError.
Proof. intros H W Hc Hu. rewrite (comments41 cs _ Hc). exact (mixed41_read H u g Hu W). Qed.
Print Assumptions C87_file41.

(** MSH 4.0: the same ([mixed40]), as C85 says. *)
Theorem C87_file40 {fl : floats} (g : gfile fl) cs (u : nat -> list (string * list string)) : floats_ok fl -> gfile40_ok g ->
  (forall ks, gf_links g = Some ks -> Forall glink40_ok ks /\ in_range CInt (Z.of_nat (length ks))) ->
  Forall (fun c => closed ("Comments"%string, c)) cs -> (forall i, Forall other (u i)) ->
  exists names, (forall k, dget k names = dget k (gf_names g)) /\
    read40 ascii_port (comments cs ++ mixed40 u g) = if groups_agree g then Ok (file_mesh40 g names) else Err ValueError.
Proof. intros H W K Hc Hu. rewrite (comments40 cs _ Hc). exact (mixed40_read H u g Hu W K). Qed.
Print Assumptions C87_file40.

(** A comment that quotes a header, and data of element nodes, which meshio does not read. *)
Definition remarks : list (list string) := [["made by hand"; "$MeshFormat"; ""]; []]%string.
Definition unread : list (string * list string) :=
  [("ElementNodeData", ["1"; """q"""; "1"; "0"; "3"; "0"; "1"; "1"; "5 3 1 2 3"]); ("Comments", ["$Nodes"; "$EndNodes"]); ("Parametrizations", [])]%string.
Example remarks_ok : Forall (fun c => closed ("Comments"%string, c)) remarks /\ Forall other unread.
Proof.
  split.
  - repeat (constructor; [unfold closed; cbn [fst snd]; repeat (constructor; [vm_compute; discriminate|]); constructor|]). constructor.
  - repeat (constructor; [split; [reflexivity|split; [vm_compute; intuition discriminate|
      unfold closed; cbn [fst snd]; repeat (constructor; [vm_compute; discriminate|]); constructor]]|]). constructor.
Qed.
Definition plate_seen (u : nat -> list (string * list string)) (pre mid : list string) :=
  do h <- read_header (pre ++ mixed22 u (plate [9; 6]%Z)); do m <- @read22 int_floats (mid ++ snd h); Ok (g_points m, g_cells m, g_phys m, g_names m, g_pdata m).
Example C87_instance22 : file22_ok (plate [9; 6]%Z) /\ mixed22 (fun _ => []) (plate [9; 6]%Z) = file22_lines (plate [9; 6]%Z) /\
  plate_seen (fun _ => []) [] [] = Ok ([[1; 1; 0]; [0; 0; 0]; [1; 0; 0]; [0; 1; 0]]%Z,
    [Block "line" [[0; 2]]; Block "triangle" [[1; 2; 0]; [1; 0; 3]]; Block "line" [[2; 1]]]%Z, Some [[4]; [9; 9]; [4]]%Z,
    [("side", (4, 1)); ("all", (9, 2))]%Z%string, [("T", [[10]; [20]; [30]; [40]])]%Z%string) /\
  plate_seen (fun i => firstn i unread) (comments remarks) (flat_map section_lines unread) = plate_seen (fun _ => []) [] [].
Proof.
  split; [apply plate_ok; unfold int32; repeat (constructor; [lia|]); constructor|]. repeat split; vm_compute; reflexivity.
Qed.
Definition read_square (u : nat -> list (string * list string)) (pre : list string) :=
  read41 (ascii_port (fl := int_floats)) (pre ++ @mixed41 int_floats u (square [4]%Z)).
Example C87_instance41 : gfile_ok (square [4]%Z) /\
  @mixed41 int_floats (fun _ => []) (square [4]%Z) = gmsh_file (ascii_port (fl := int_floats)) (square [4]%Z) /\
  (do m <- read_square (fun _ => []) []; Ok (m_cells m)) = Ok [Block "line" [[0; 2]; [2; 1]]; Block "triangle" [[1; 2; 0]; [1; 0; 3]]]%Z /\
  read_square (fun i => skipn i unread) (comments remarks) = read_square (fun _ => []) [].
Proof. split; [apply square_ok; [repeat constructor; cbn; lia|cbn; lia]|]. repeat split; vm_compute; reflexivity. Qed.
Definition read_square40 (u : nat -> list (string * list string)) (pre : list string) :=
  read40 (ascii_port (fl := int_floats)) (pre ++ @mixed40 int_floats u (square40 [4]%Z (Some square_links))).
Example C87_instance40 : gfile40_ok (square40 [4]%Z (Some square_links)) /\
  (Forall glink40_ok square_links /\ in_range CInt (Z.of_nat (length square_links))) /\
  @mixed40 int_floats (fun _ => []) (square40 [4]%Z (Some square_links)) = gmsh_file40 (ascii_port (fl := int_floats)) (square40 [4]%Z (Some square_links)) /\
  (do m <- read_square40 (fun _ => []) []; Ok (q_cells (o_mesh m))) = Ok [Block "line" [[0; 2]; [2; 1]]; Block "triangle" [[1; 2; 0]; [1; 0; 3]]]%Z /\
  read_square40 (fun i => skipn i unread) (comments remarks) = read_square40 (fun _ => []) [].
Proof.
  split; [apply square40_ok; [repeat constructor; cbn; lia|cbn; lia]|]. split; [exact square_links_ok|]. repeat split; vm_compute; reflexivity.
Qed.
