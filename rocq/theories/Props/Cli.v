(** Properties C74-C76: the command line tools. *)
From Coq Require Import Lia.
From Verif.Lib Require Import Base Facts Text TextFacts Lines Bytes File.
From Verif.Model Require Import Core Helpers Ansys Cli.
From Verif.Proofs Require Import Helpers Cli.

(** C74: meshio convert without conversions of sets.  The mesh that was read goes to the writer of the output format, with the
    options; the command fails with TypeError if the writer does not know an option. *)
Theorem C74_convert {F File} (r : registry (reader File (mesh F)) string) a infile (f : File) outfile tr m w known :
  sets_to_int_data a = false -> int_data_to_sets a = false ->
  read_file r true infile (input_format a) f = (tr, Ok m) ->
  write r (PathTo outfile) (output_format a) (shapes m) = Ok w -> dget w keywords = Some known ->
  ((ascii_ a = true -> In "binary" known) /\ (float_format a <> None -> In "float_fmt" known) ->
   exists kws, convert r a true infile f outfile = Ok (Call w kws m) /\
     dget "binary" kws = (if ascii_ a then Some "False" else None) /\ dget "float_fmt" kws = float_format a) /\
  ((ascii_ a = true /\ ~ In "binary" known) \/ (float_format a <> None /\ ~ In "float_fmt" known) ->
   convert r a true infile f outfile = Err TypeError).
Proof.
  intros H1 H2 H3 H4 H5. unfold convert. rewrite H3. cbn [bind snd]. unfold convert_sets. rewrite H1, H2. cbn [bind].
  rewrite H4. cbn [bind]. rewrite H5.
  assert (E : forallb (fun k => smem k known) (dkeys (convert_keywords a)) =
              ((match float_format a with Some _ => smem "float_fmt" known | None => true end) &&
               (if ascii_ a then smem "binary" known else true))%bool).
  { unfold convert_keywords. destruct (float_format a), (ascii_ a); cbn; rewrite ?Bool.andb_true_r; reflexivity. }
  rewrite E. split.
  - intros [Ha Hf]. exists (convert_keywords a).
    assert (G : ((match float_format a with Some _ => smem "float_fmt" known | None => true end) &&
                 (if ascii_ a then smem "binary" known else true))%bool = true).
    { apply andb_true_intro. split.
      - destruct (float_format a); [|reflexivity]. apply smem_In. apply Hf. discriminate.
      - destruct (ascii_ a); [|reflexivity]. apply smem_In. auto. }
    rewrite G. split; [reflexivity|]. unfold convert_keywords. destruct (float_format a), (ascii_ a); cbn; auto.
  - intros Hn.
    assert (G : ((match float_format a with Some _ => smem "float_fmt" known | None => true end) &&
                 (if ascii_ a then smem "binary" known else true))%bool = false).
    { apply Bool.andb_false_iff. destruct Hn as [[Ha Hn]|[Ha Hn]].
      - right. rewrite Ha. apply Bool.not_true_iff_false. now rewrite smem_In.
      - left. destruct (float_format a); [|congruence]. apply Bool.not_true_iff_false. now rewrite smem_In. }
    now rewrite G.
Qed.
Print Assumptions C74_convert.

(** C74: with --sets-to-int-data the written mesh has the points and cells that were read, no sets any more, and integer data
    (see C05, C06) under the joined names of the sets; all other data is kept. *)
Theorem C74_sets_to_data {F File} (r : registry (reader File (mesh F)) string) a infile (f : File) outfile tr m c :
  sets_to_int_data a = true -> int_data_to_sets a = false ->
  read_file r true infile (input_format a) f = (tr, Ok m) -> convert r a true infile f outfile = Ok c ->
  points (c_mesh c) = points m /\ cells (c_mesh c) = cells m /\ point_sets (c_mesh c) = [] /\ cell_sets (c_mesh c) = [] /\
  (exists m1 m2, point_sets_to_data "-" m = Ok m1 /\ cell_sets_to_data None m = Ok m2 /\
    point_data (c_mesh c) = point_data m1 /\ cell_data (c_mesh c) = cell_data m2) /\
  (forall k, k <> join "-" (dkeys (point_sets m)) -> dget k (point_data (c_mesh c)) = dget k (point_data m)) /\
  (forall k, k <> join "-" (dkeys (cell_sets m)) -> dget k (cell_data (c_mesh c)) = dget k (cell_data m)).
Proof.
  intros H1 H2 H3. unfold convert. rewrite H3. cbn [bind snd]. unfold convert_sets. rewrite H1, H2.
  destruct (point_sets_to_data "-" m) as [x|e] eqn:Ex; [|discriminate]. cbn [bind].
  destruct (cell_sets_to_data None x) as [y|e] eqn:Ey; [|discriminate]. cbn [bind].
  destruct (write r _ _ _) as [w|]; [|discriminate]. cbn [bind]. destruct (dget w keywords); [|discriminate].
  destruct (forallb _ _); [|discriminate]. intros H. injection H as <-. cbn [c_mesh].
  unfold point_sets_to_data in Ex. unfold cell_sets_to_data in Ey.
  assert (P : points x = points m /\ cells x = cells m /\ point_sets x = [] /\ cell_sets x = cell_sets m /\ cell_data x = cell_data m /\
              (forall k, k <> join "-" (dkeys (point_sets m)) -> dget k (point_data x) = dget k (point_data m))).
  { destruct (point_sets m) eqn:Es.
    - injection Ex as <-. repeat split; auto.
    - destruct (set_values _ _); [|discriminate]. cbn [bind] in Ex. injection Ex as <-. cbn.
      repeat split; auto. intros k Hk. apply dget_dset_other. exact Hk. }
  destruct P as (P1 & P2 & P3 & P4 & P5 & P6). rewrite P4, P2, P5 in Ey.
  assert (Q : points y = points x /\ cells y = cells x /\ point_sets y = [] /\ cell_sets y = [] /\ point_data y = point_data x /\
              (forall k, k <> join "-" (dkeys (cell_sets m)) -> dget k (cell_data y) = dget k (cell_data m)) /\
              exists m2, cell_sets_to_data None m = Ok m2 /\ cell_data y = cell_data m2).
  { unfold cell_sets_to_data. destruct (cell_sets m) eqn:Es.
    - injection Ey as <-. rewrite P5. repeat split; auto. exists m. auto.
    - destruct (set_values_blocks _ _); [|discriminate]. cbn [bind] in Ey |- *. injection Ey as <-. cbn. rewrite P2.
      repeat split; auto. + intros k Hk. apply dget_dset_other. exact Hk. + eexists. split; reflexivity. }
  destruct Q as (Q1 & Q2 & Q3 & Q4 & Q5 & Q6 & m2 & Q7 & Q8).
  rewrite Q1, Q2, Q5. repeat split; auto. exists x, m2. auto.
Qed.
Print Assumptions C74_sets_to_data.

(** C74 is false of --int-data-to-sets: if the file has any point data or cell data, the command fails before it writes
    anything (the dictionaries shrink while they are iterated over); the option works on meshes without data only. *)
Theorem C74_data_to_sets_refuted {F File} (r : registry (reader File (mesh F)) string) a infile (f : File) outfile tr m :
  int_data_to_sets a = true -> sets_to_int_data a = false -> read_file r true infile (input_format a) f = (tr, Ok m) ->
  (point_data m <> [] \/ cell_data m <> [] -> exists e, convert r a true infile f outfile = Err e) /\
  (point_data m = [] -> cell_data m = [] ->
   convert r a true infile f outfile =
   convert r (ConvertArgs (input_format a) (output_format a) (ascii_ a) (float_format a) false false) true infile f outfile).
Proof.
  intros H1 H2 H3. unfold convert. cbn [input_format output_format]. rewrite H3. cbn [bind snd]. split.
  - intros Hm. destruct (convert_sets_fails a m H1 H2 Hm) as [e ->]. cbn. eauto.
  - intros Hp Hc. rewrite (convert_sets_no_data a m H2 Hp Hc). reflexivity.
Qed.
Print Assumptions C74_data_to_sets_refuted.

(** A file with one array of integer point data: the conversion is possible, and the command fails with RuntimeError. *)
Definition m74 : mesh unit := Mesh [tt; tt; tt] [Block "triangle" [[0; 1; 2]]%Z] [("a-b", AInt [0; 1; 1]%Z)] [] [] [].
Definition rd74 (m : mesh unit) : string -> reader unit (mesh unit) := fun _ _ => Ok m.
Definition args74 s2d d2s asc := ConvertArgs None None asc None s2d d2s.
Example C74_ex_data :
  point_data_to_sets "a-b" m74 = Ok (Mesh (points m74) (cells m74) [] [] [("a", [0]); ("b", [1; 2])] []) /\
  convert (default_registry (rd74 m74)) (args74 false true false) true "in.vtu" tt "out.vtk" = Err RuntimeError.
Proof. split; vm_compute; reflexivity. Qed.
Definition m74s : mesh unit := Mesh [tt; tt; tt] [Block "triangle" [[0; 1; 2]]%Z] [] [] [("a", [0]); ("b", [1; 2])] [].
Example C74_ex_sets : convert (default_registry (rd74 m74s)) (args74 true false false) true "in.vtu" tt "out.vtk" = Ok (Call "vtk 5.1" [] m74).
Proof. vm_compute. reflexivity. Qed.
Example C74_ex_ascii :
  convert (default_registry (rd74 m74)) (args74 false false true) true "in.vtu" tt "out.vtk" = Ok (Call "vtk 5.1" [("binary", "False")] m74) /\
  convert (default_registry (rd74 m74)) (args74 false false true) true "in.vtu" tt "out.obj" = Err TypeError.
Proof. split; vm_compute; reflexivity. Qed.

(** C75: the commands ascii, binary, compress and decompress write the file in the format in which it was read, if the format
    is given or the extension is not .msh: the only reader that is called is the one of the format written. *)
Theorem C75_same_format_partial {M File} (rd : string -> reader File M) c exists_ name input (f : File) tr fmt kws m :
  in_place (default_registry rd) c exists_ name input f = (tr, Ok (fmt, kws, m)) ->
  given input <> None \/ lower (last (suffixes name) "") <> ".msh" ->
  tr = [fmt] /\ rd fmt f = Ok m /\ dget fmt (in_place_table c) = Some kws.
Proof. apply in_place_one. Qed.
Print Assumptions C75_same_format_partial.
Example C75_ex : let r := default_registry (fun n (f : nat) => Ok (f + 1)) in
  in_place r (Compress true) true "mesh.v1.VTU" None 7 = (["vtu"], Ok ("vtu", [("binary", "True"); ("compression", "lzma")], 8)) /\
  in_place r Ascii true "mesh.dato.gz" None 7 = (["permas"], Err SystemExit) /\
  in_place r Binary true "mesh.msh" (Some "gmsh") 7 = (["gmsh"], Ok ("gmsh", [("binary", "True")], 8)).
Proof. vm_compute. auto. Qed.

(** The readers of a session in which ANSYS files are read as modelled. *)
Definition with_ansys {fl : floats} (c4 c8 : codec fl) {M} (conv : ansys_out fl -> M) fuel (rd : string -> reader string M) : string -> reader string M :=
  fun n => if String.eqb n "ansys" then fun s => do x <- read_ansys c4 c8 fuel s; Ok (conv x) else rd n.

(** C75 is false for Gmsh files, which begin with a dollar sign and have the extension .msh: each of the commands reads the file
    as Gmsh file and overwrites it with an ANSYS file. *)
Theorem C75_msh_refuted {fl : floats} (c4 c8 : codec fl) {M} (conv : ansys_out fl -> M) fuel rd c name s m :
  c <> Decompress -> fuel <> 0 -> rd "gmsh" (String "$" s) = Ok m ->
  filetypes_from_path (default_registry (with_ansys c4 c8 conv fuel rd)) name = Ok ["ansys"; "gmsh"] ->
  in_place (default_registry (with_ansys c4 c8 conv fuel rd)) c true name None (String "$" s) =
  (["ansys"; "gmsh"], Ok ("ansys", [("binary", match c with Ascii => "False" | _ => "True" end)], m)).
Proof.
  intros Hc Hfuel Hm Hn. unfold in_place. cbn [given]. rewrite Hn. cbn [bind of_option hd_error negb].
  unfold read_file. cbn [negb given]. rewrite Hn.
  set (g := with_ansys c4 c8 conv fuel rd).
  assert (Ea : g "ansys" (String "$" s) = Err ReadError).
  { change (g "ansys" (String "$" s)) with (do x <- read_ansys c4 c8 fuel (String "$" s); Ok (conv x)).
    now rewrite (ansys_refuses_dollar c4 c8 fuel s Hfuel). }
  assert (Eg : g "gmsh" (String "$" s) = Ok m) by exact Hm.
  clearbody g.
  rewrite (try_two _ _ "ansys" "gmsh" (g "ansys") (g "gmsh") m (default_reader_get g "ansys" eq_refl) Ea (default_reader_get g "gmsh" eq_refl) Eg).
  cbn [bind]. destruct c; try reflexivity. congruence.
Qed.
Print Assumptions C75_msh_refuted.
Example C75_msh_name {R} (rd : string -> R) : filetypes_from_path (default_registry rd) "part.MSH" = Ok ["ansys"; "gmsh"].
Proof. vm_compute. reflexivity. Qed.

(** C76: a command that fails before a writer is called leaves the file alone. *)
Theorem C76_early_failure {M File} (writers : string -> dict string -> M -> File -> File) (rd : string -> reader File M) c exists_ name input (f : File) tr e :
  in_place (default_registry rd) c exists_ name input f = (tr, Err e) ->
  in_place_file writers (default_registry rd) c exists_ name input f = f.
Proof. intros H. unfold in_place_file. now rewrite H. Qed.
Print Assumptions C76_early_failure.

(** C76 is false in general: the ANSYS writer empties the file when it is opened.  If the mesh of a Gmsh file has a type of
    cells that ANSYS files do not have (a line, say), each of the commands ascii, binary and compress raises KeyError and the old file
    is lost. *)
Theorem C76_lost_refuted {fl : floats} (c4 c8 : codec fl) conv fuel rd c v name s m kb
    (writers : string -> dict string -> ansys_mesh fl -> string -> string) :
  c <> Decompress -> fuel <> 0 -> rd "gmsh" (String "$" s) = Ok m ->
  (forall b m old, writers "ansys" [("binary", if b : bool then "True" else "False")] m old = fst (ansys_left c4 c8 v b m)) ->
  an_dim m = 2 \/ an_dim m = 3 -> In kb (an_cells m) -> dget (btype (snd kb)) meshio_to_ansys_type = None ->
  filetypes_from_path (default_registry (with_ansys c4 c8 conv fuel rd)) name = Ok ["ansys"; "gmsh"] ->
  let binary := match c with Ascii => false | _ => true end in
  snd (ansys_left c4 c8 v binary m) = Err KeyError /\
  exists t, in_place_file writers (default_registry (with_ansys c4 c8 conv fuel rd)) c true name None (String "$" s) = String "(" t.
Proof.
  intros Hc Hf Hm Hw Hd Hk Ht Hn binary. split.
  - unfold ansys_left. replace (negb _) with false by (destruct Hd as [-> | ->]; reflexivity). cbn [snd].
    generalize 0%Z. clearbody binary. clear -Hk Ht. induction (an_cells m) as [|x l IH]; intros z; [destruct Hk|]. cbn [ansys_blocks_left].
    assert (G : forall y, ansys_block_text binary z x = Err y -> y = KeyError).
    { intros y. unfold ansys_block_text. destruct (ansys_key binary (fst x)) eqn:E.
      - cbn [bind]. destruct (dget (btype (snd x)) meshio_to_ansys_type); cbn [of_option bind]; [discriminate|congruence].
      - cbn [bind]. unfold ansys_key in E. destruct binary; [destruct (fst x)|]; congruence. }
    destruct (ansys_block_text binary z x) as [t|y] eqn:E; cbn [snd].
    + destruct Hk as [->|Hk]; [|now apply IH]. exfalso. unfold ansys_block_text in E.
      destruct (ansys_key _ _); cbn [bind] in E; [|discriminate]. rewrite Ht in E. discriminate.
    + f_equal. auto.
  - unfold in_place_file. rewrite (C75_msh_refuted c4 c8 conv fuel rd c name s m Hc Hf Hm Hn). cbn [snd].
    assert (E : [("binary", match c with Ascii => "False" | _ => "True" end)] = [("binary", if binary then "True" else "False")])
      by (unfold binary; destruct c; reflexivity).
    rewrite E, Hw. apply ansys_left_head.
Qed.
Print Assumptions C76_lost_refuted.

(** What the ANSYS writer leaves is the file of C52 if it succeeds. *)
Theorem C76_ansys_left {fl : floats} (c4 c8 : codec fl) v binary m :
  write_ansys c4 c8 v binary m = match snd (ansys_left c4 c8 v binary m) with
                                 | Ok _ => Ok (fst (ansys_left c4 c8 v binary m)) | Err e => Err e end.
Proof. apply ansys_left_write. Qed.
Print Assumptions C76_ansys_left.
Definition m76 : ansys_mesh int_floats :=
  AnsysMesh (F := int_floats) 3 false [[0; 0; 0]; [1; 0; 0]; [0; 1; 0]]%Z [(I64, Block "triangle" [[0; 1; 2]]%Z); (I64, Block "line" [[0; 1]]%Z)].
Example C76_ex : snd (ansys_left (fl := int_floats) (int_codec 4) (int_codec 8) "5.3" false m76) = Err KeyError.
Proof. vm_compute. reflexivity. Qed.
