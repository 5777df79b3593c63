(** Property theorems for the format registry, read() and write(): C11-C14. *)
From Verif.Lib Require Import Base Facts Text TextFacts.
From Verif.Model Require Import Core Helpers.
From Verif.Spec Require Import Helpers.
From Verif.Proofs Require Import Helpers.

(** C11: after any history of calls, starting from the empty registry. *)
Theorem C11_reader {R W} (h : list (op R W)) fmt :
  dget fmt (reader_map (run h)) = last_reader fmt (rev h).
Proof. exact (reader_history h fmt). Qed.
Print Assumptions C11_reader.

Theorem C11_writer {R W} (h : list (op R W)) fmt :
  dget fmt (writer_map (run h)) = last_writer fmt (rev h).
Proof. exact (writer_history h fmt). Qed.
Print Assumptions C11_writer.

Theorem C11_extensions {R W} (h : list (op R W)) x :
  formats_for (ext_map (run h)) x = ext_spec x h.
Proof. exact (ext_history h x). Qed.
Print Assumptions C11_extensions.

(** After deregister_format(f) neither reading nor writing yields f; the extension lookup
    does not yield f if f was registered at most once for the extension. *)
Theorem C11_deregister_partial {R W} (h : list (op R W)) f x :
  dget f (reader_map (run (h ++ [Deregister f]))) = None /\
  dget f (writer_map (run (h ++ [Deregister f]))) = None /\
  (count_occ string_dec (formats_for (ext_map (run h)) x) f <= 1 ->
   ~ In f (formats_for (ext_map (run (h ++ [Deregister f]))) x)).
Proof.
  rewrite reader_history, writer_history, rev_unit. cbn [last_reader last_writer].
  rewrite String.eqb_refl. split; [reflexivity|]. split; [reflexivity|].
  intros Hc. rewrite run_snoc. cbn [step].
  change (formats_for ?m ?x) with (ext_list m x) in *. rewrite ext_deregister.
  rewrite (count_occ_not_In string_dec), remove_first_count.
  destruct (string_dec f f); [lia|congruence].
Qed.
Print Assumptions C11_deregister_partial.

(** Registering a format twice and deregistering it once leaves it in the extension
    table. *)
Theorem C11_deregister_refuted :
  ~ (forall (h : list (op unit unit)) f x,
       ~ In f (formats_for (ext_map (run (h ++ [Deregister f]))) x)).
Proof.
  intros H. apply (H [Register "fmt" [".e"] (Some tt) [("fmt", tt)];
                      Register "fmt" [".e"] (Some tt) [("fmt", tt)]] "fmt" ".e").
  vm_compute. auto.
Qed.
Print Assumptions C11_deregister_refuted.

Definition h11 : list (op nat nat) :=
  [Register "gmsh" [".msh"] (Some 1) [("gmsh22", 2); ("gmsh", 3)];
   Register "ansys" [".msh"; ".ans"] (Some 4) [("ansys", 5)];
   Register "gmsh" [".gm"] None [("gmsh", 6)];
   Deregister "ansys"].
Example C11_ex :
  (dget "gmsh" (reader_map (run h11)), dget "gmsh" (writer_map (run h11)),
   dget "ansys" (writer_map (run h11)), formats_for (ext_map (run h11)) ".msh")
  = (Some 1, Some 6, None, ["gmsh"]).
Proof. reflexivity. Qed.

(** C12: reading a file with deduced formats; [tries] lists which readers are called and
    what comes out, for any reader functions. *)
Theorem C12_read_deduced {File M W} (r : registry (reader File M) W) name (f : File) fmts :
  NoDup (map fst (reader_map r)) -> filetypes_from_path r name = Ok fmts ->
  forall called out,
  read_file r true name None f = (called, out) <-> tries (reader_map r) f fmts called out.
Proof.
  intros Hnd Hf called out. unfold read_file. cbn [negb given]. rewrite Hf.
  pose proof (try_formats_tries (reader_map r) f fmts Hnd) as Ht. split.
  - intros H. rewrite H in Ht. exact Ht.
  - intros H. destruct (tries_det _ _ _ _ _ _ _ Hnd Ht H) as [E1 E2].
    rewrite (surjective_pairing (try_formats (reader_map r) f fmts)). congruence.
Qed.
Print Assumptions C12_read_deduced.

Theorem C12_read_explicit {File M W} (r : registry (reader File M) W) name (f : File) fmt :
  fmt <> "" -> NoDup (map fst (reader_map r)) ->
  forall called out,
  read_file r true name (Some fmt) f = (called, out) <-> tries (reader_map r) f [fmt] called out.
Proof.
  intros Hne Hnd called out. unfold read_file. cbn [negb].
  replace (given (Some fmt)) with (Some fmt) by (destruct fmt; [congruence|reflexivity]).
  pose proof (try_formats_tries (reader_map r) f [fmt] Hnd) as Ht. split.
  - intros H. rewrite H in Ht. exact Ht.
  - intros H. destruct (tries_det _ _ _ _ _ _ _ Hnd Ht H) as [E1 E2].
    rewrite (surjective_pairing (try_formats (reader_map r) f [fmt])). congruence.
Qed.
Print Assumptions C12_read_explicit.

Theorem C12_no_file {File M W} (r : registry (reader File M) W) name (f : File) fmt :
  read_file r false name fmt f = ([], Err ReadError).
Proof. reflexivity. Qed.
Print Assumptions C12_no_file.

(** From a buffer, an explicit format other than tetgen (which needs two files) is required,
    and exactly its reader is called. *)
Theorem C12_buffer {File M W} (r : registry (reader File M) W) fmt (f : File) called out :
  read_buffer r fmt f = (called, out) <->
  (exists ff rd, fmt = Some ff /\ ff <> "tetgen" /\ dget ff (reader_map r) = Some rd /\ called = [ff] /\ out = rd f) \/
  ((fmt = None \/ fmt = Some "tetgen" \/ exists ff, fmt = Some ff /\ dget ff (reader_map r) = None) /\
   called = [] /\ out = Err ReadError).
Proof.
  unfold read_buffer. destruct fmt as [ff|].
  - destruct (String.eqb_spec ff "tetgen") as [->|Hne].
    + split; [intros H; injection H as <- <-; right; auto|].
      intros [(x & rd & E & H & _)|(_ & -> & ->)]; [congruence|reflexivity].
    + destruct (dget ff (reader_map r)) as [rd|] eqn:E.
      * split; [intros H; injection H as <- <-; left; exists ff, rd; auto|].
        intros [(x & rd' & H1 & _ & H2 & -> & ->)|([H|[H|(x & H & H')]] & _)]; congruence.
      * split; [intros H; injection H as <- <-; right; repeat split; right; right; eauto|].
        intros [(x & rd' & H1 & _ & H2 & -> & ->)|(_ & -> & ->)]; [congruence|reflexivity].
  - split; [intros H; injection H as <- <-; right; auto|].
    intros [(x & rd & E & _)|(_ & -> & ->)]; [discriminate|reflexivity].
Qed.
Print Assumptions C12_buffer.

(** The hypothesis on the reader table holds after every history. *)
Theorem C12_reader_names_unique {R W} (h : list (op R W)) :
  NoDup (map fst (reader_map (run h))).
Proof. apply run_ok. Qed.
Print Assumptions C12_reader_names_unique.

Definition r12 : registry (reader nat string) unit :=
  run [Register "a" [".x"] (Some (fun _ => Err ReadError)) [];
       Register "b" [".x"] (Some (fun n => Ok (str_of_nat n))) [];
       Register "c" [".x"] (Some (fun _ => Err ValueError)) []].
Example C12_ex : read_file r12 true "mesh.tar.X" None 42 = (["a"; "b"], Ok "42").
Proof. reflexivity. Qed.

(** C13: [parts] are the dot-separated parts of the file name after the stem. *)
Theorem C13_deduction {R W} (r : registry R W) stem parts :
  stem <> "" -> char_in "." stem = false -> Forall (fun p => char_in "." p = false) parts ->
  parts <> [] -> last parts "" <> "" ->
  filetypes_from_path r (join "." (stem :: parts)) =
  match flat_map (fun t => formats_for (ext_map r) (lower (dotted t))) (tails parts) with
  | [] => Err ReadError
  | l => Ok l
  end.
Proof. exact (filetypes_from_path_spec r stem parts). Qed.
Print Assumptions C13_deduction.

Example C13_ex :
  filetypes_from_path r12 (join "." ["mesh"; "tar"; "X"]) = Ok ["a"; "b"; "c"] /\
  filetypes_from_path r12 "mesh.y" = Err ReadError.
Proof. split; reflexivity. Qed.

(** C14: a writer is called exactly when the format is known and every block has the
    right number of columns; the blocks are given by type and array shape. *)
Theorem C14_writer_called {R W} (r : registry R W) t fmt bs w :
  write r t fmt bs = Ok w <->
  exists f, write_format r t fmt = Ok (Some f) /\ dget f (writer_map r) = Some w /\
    (forall b n, In b bs -> dget (wtype b) num_nodes_per_cell = Some n ->
       nth_error (wshape b) 1 = Some n).
Proof. exact (write_ok r t fmt bs w). Qed.
Print Assumptions C14_writer_called.

Theorem C14_malformed {R W} (r : registry R W) t fmt bs f w :
  write_format r t fmt = Ok (Some f) -> dget f (writer_map r) = Some w ->
  (forall b, In b bs -> 2 <= length (wshape b)) ->
  (exists b n, In b bs /\ dget (wtype b) num_nodes_per_cell = Some n /\
     nth_error (wshape b) 1 <> Some n) ->
  write r t fmt bs = Err WriteError.
Proof.
  intros H1 H2 H3 H4. unfold write. rewrite H1. cbn [bind]. rewrite H2.
  now rewrite check_blocks_malformed.
Qed.
Print Assumptions C14_malformed.

(** The target format: explicit, or the first one deduced. *)
Theorem C14_format {R W} (r : registry R W) name fmts :
  (forall f, f <> "" -> write_format r (PathTo name) (Some f) = Ok (Some f)) /\
  (filetypes_from_path r name = Ok fmts -> write_format r (PathTo name) None = Ok (hd_error fmts)) /\
  write_format r Buffer None = Err WriteError /\
  write_format r Buffer (Some "tetgen") = Err WriteError.
Proof.
  split; [|split; [|split; reflexivity]].
  - intros f Hf. cbn. destruct f; [congruence|reflexivity].
  - intros H. cbn. now rewrite H.
Qed.
Print Assumptions C14_format.

Definition r14 : registry unit nat := run [Register "vtk" [".vtk"] None [("vtk", 7)]].
Example C14_ex :
  write r14 (PathTo "a.vtk") None [WBlock "triangle" [5; 3]; WBlock "polygon" [2; 9]] = Ok 7 /\
  write r14 (PathTo "a.vtk") None [WBlock "triangle" [5; 3]; WBlock "tetra" [5; 3]] = Err WriteError.
Proof. split; reflexivity. Qed.
