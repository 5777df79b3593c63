(** Property C77: documented extensions; C74, C75: what the options and the commands do for which formats. *)
From Coq Require Import Lia.
From Verif.Lib Require Import Base Facts Text TextFacts Lines Bytes File.
From Verif.Model Require Import Core Helpers Ansys Cli.
From Verif.Spec Require Import Formats.
From Verif.Proofs Require Import Helpers Cli Formats.

(** C77: a file whose name has a documented extension, in capital or small letters and whatever comes before it, is read with
    the documented readers in that order, and written with the documented writer. *)
Theorem C77_extensions {M File} (rd : string -> reader File M) name e fmts w :
  In (e, fmts, w) documented -> has_extension name e ->
  filetypes_from_path (default_registry rd) name = Ok fmts /\
  (forall bs, check_blocks bs = Ok tt -> write (default_registry rd) (PathTo name) None bs = Ok w) /\
  (forall f m fmt, fmts = [fmt] -> fmt <> "svg" -> rd fmt f = Ok m -> read_file (default_registry rd) true name None f = ([fmt], Ok m)).
Proof.
  intros H1 H2. pose proof (documented_formats rd name e fmts w H1 H2) as E. split; [exact E|]. split.
  - intros bs Hb. unfold write. cbn [write_format given]. rewrite E. cbn [bind].
    assert (G : forallb (fun x => match hd_error (snd (fst x)) with
                                  | Some f => match dget f (writer_map (default_registry (fun n : string => n))) with
                                              | Some w => String.eqb w (snd x) | None => false end
                                  | None => false end) documented = true) by (vm_compute; reflexivity).
    assert (GW : writer_map (default_registry rd) = writer_map (default_registry (fun n : string => n))) by (vm_compute; reflexivity).
    rewrite forallb_forall in G. specialize (G _ H1). cbn [fst snd] in G. rewrite GW.
    destruct (hd_error fmts) as [f|]; [|discriminate G]. destruct (dget f _) as [w'|]; [|discriminate G].
    apply String.eqb_eq in G. subst w'. now rewrite Hb.
  - intros f m fmt -> Hs Hr. unfold read_file. cbn [negb given]. rewrite E.
    assert (G : forallb (fun x => forallb (fun n => (String.eqb n "svg" || smem n default_names)%bool) (snd (fst x))) documented = true) by (vm_compute; reflexivity).
    rewrite forallb_forall in G. specialize (G _ H1). cbn [fst snd forallb] in G. rewrite Bool.andb_true_r in G. apply orb_prop in G.
    destruct G as [G|G]; [apply String.eqb_eq in G; congruence|].
    cbn [try_formats]. now rewrite (default_reader_get rd fmt G), Hr.
Qed.
Print Assumptions C77_extensions.
(** SVG files cannot be read: ReadError, and no reader is called. *)
Theorem C77_svg {M File} (rd : string -> reader File M) name f : has_extension name ".svg" ->
  read_file (default_registry rd) true name None f = ([], Err ReadError).
Proof.
  intros H. unfold read_file. cbn [negb given].
  rewrite (documented_formats rd name ".svg" ["svg"] "svg"); [|vm_compute; tauto|exact H].
  cbn [try_formats]. now rewrite (default_reader_map rd).
Qed.
Print Assumptions C77_svg.
Example C77_ex : has_extension "wing.v2.XmF" ".xmf" /\ has_extension "..a.vol.GZ" ".vol.gz" /\ ~ has_extension "..vtu" ".vtu".
Proof.
  split; [exists "wing.v2", ".XmF"; repeat split; intros [K _]; discriminate K|]. split; [exists "..a", ".vol.GZ"; repeat split; intros (_ & _ & K & _); discriminate K|].
  intros (stem & e & E & Hs & Hc). apply case_lower in Hc as Hl.
  destruct stem as [|a [|b s]]; [now elim Hs|injection E as <- _; apply Hs; cbn; auto|].
  injection E as <- <- E. apply (f_equal String.length) in Hl. apply (f_equal String.length) in E.
  assert (LL : forall x, String.length (lower x) = String.length x) by (induction x; cbn; auto).
  rewrite LL in Hl. cbn in Hl, E. clear - E Hl. revert E. induction s as [|c s IH]; cbn [append String.length] in *; [congruence|].
  intros E. assert (L : forall s : string, String.length e <= String.length (s ++ e)) by (clear; induction s; cbn [append String.length]; lia). specialize (L s). lia.
Qed.

(** C74: the option --ascii is accepted for exactly the formats that have a text and a binary variant; for every other output
    format meshio convert --ascii fails with TypeError. *)
Theorem C74_ascii {F File} (rd : string -> reader File (mesh F)) a infile (f : File) outfile tr m e fmts w :
  ascii_ a = true -> float_format a = None -> sets_to_int_data a = false -> int_data_to_sets a = false -> given (output_format a) = None ->
  In (e, fmts, w) documented -> has_extension outfile e -> check_blocks (shapes m) = Ok tt ->
  read_file (default_registry rd) true infile (input_format a) f = (tr, Ok m) ->
  convert (default_registry rd) a true infile f outfile =
    if existsb (fun fmt => smem w (writers_of fmt)) text_or_binary then Ok (Call w [("binary", "False")] m) else Err TypeError.
Proof.
  intros H1 H2 H3 H4 H5 H6 H7 H8 H9. unfold convert. rewrite H9. cbn [snd bind]. unfold convert_sets. rewrite H3, H4. cbn [bind].
  destruct (C77_extensions rd outfile e fmts w H6 H7) as (_ & HW & _).
  assert (EW : write (default_registry rd) (PathTo outfile) (output_format a) (shapes m) = Ok w).
  { rewrite <- (HW _ H8). unfold write, write_format. rewrite H5. reflexivity. }
  rewrite EW. cbn [bind]. unfold convert_keywords. rewrite H1, H2. cbn [app].
  assert (G : forallb (fun x => match dget (snd x) keywords with
                                | Some l => Bool.eqb (smem "binary" l) (existsb (fun fmt => smem (snd x) (writers_of fmt)) text_or_binary)
                                | None => false end) documented = true) by (vm_compute; reflexivity).
  rewrite forallb_forall in G. specialize (G _ H6). cbn [snd] in G. destruct (dget w keywords) as [l|]; [|discriminate G].
  apply Bool.eqb_prop in G. change (dkeys [("binary", "False")]) with ["binary"]. cbn [forallb]. rewrite G, Bool.andb_true_r. reflexivity.
Qed.
Print Assumptions C74_ascii.
Example C74_ascii_ex : existsb (fun fmt => smem "stl" (writers_of fmt)) text_or_binary = true /\ existsb (fun fmt => smem "med" (writers_of fmt)) text_or_binary = false.
Proof. vm_compute. auto. Qed.

(** C75: meshio ascii and meshio binary handle the formats with a text and a binary variant, and XDMF, and no others; compress
    and decompress ask for compressed and for plain arrays where a format has compressed arrays; and no command passes a keyword
    argument that the writers of the format do not know. *)
Theorem C75_commands :
  (forall fmt, (exists kws, dget fmt (in_place_table Ascii) = Some kws) <-> In fmt text_or_binary \/ fmt = "xdmf") /\
  (forall fmt, (exists kws, dget fmt (in_place_table Binary) = Some kws) <-> In fmt text_or_binary \/ fmt = "xdmf") /\
  (forall fmt, In fmt text_or_binary -> dget fmt (in_place_table Ascii) = Some [("binary", "False")] /\
                                        dget fmt (in_place_table Binary) = Some [("binary", "True")]) /\
  (dget "xdmf" (in_place_table Ascii) = Some [("data_format", "XML")] /\ dget "xdmf" (in_place_table Binary) = Some [("data_format", "HDF")]) /\
  (forall fmt, (exists kws, dget fmt (in_place_table Decompress) = Some kws) <-> In fmt compressible) /\
  (forall fmt kws, dget fmt (in_place_table Decompress) = Some kws -> dget "compression" kws = Some "None") /\
  (forall fmt, In fmt compressible -> exists kws k1 k2 c1, dget fmt (in_place_table (Compress false)) = Some k1 /\ dget fmt (in_place_table (Compress true)) = Some k2 /\
     dget fmt (in_place_table Decompress) = Some kws /\ dget "compression" k1 = Some c1 /\ c1 <> "None" /\ k1 <> k2) /\
  (forall max fmt kws, dget fmt (in_place_table (Compress max)) = Some kws -> In fmt compressible \/ kws = [("binary", "True")]) /\
  (forall c fmt kws w, dget fmt (in_place_table c) = Some kws -> In w (writers_of fmt) ->
     exists known, dget w keywords = Some known /\ forall k, In k (dkeys kws) -> In k known).
Proof.
  assert (DI : forall (d : dict (dict string)) fmt, (exists kws, dget fmt d = Some kws) <-> In fmt (dkeys d)).
  { intros d fmt. split.
    - intros (k & H). apply dget_In in H. apply in_map_iff. exists (fmt, k). auto.
    - intros H. destruct (dget fmt d) eqn:E; [eauto|]. exfalso. revert E. clear - H. induction d as [|[k v] d IH]; [easy|].
      cbn [dget fst]. destruct (String.eqb_spec fmt k); [discriminate|]. cbn in H. destruct H as [H|H]; [congruence|auto]. }
  split; [intros fmt; rewrite DI; vm_compute; intuition|]. split; [intros fmt; rewrite DI; vm_compute; intuition|].
  split.
  { intros fmt H. vm_compute in H. repeat destruct H as [<-|H]; try contradiction H; vm_compute; auto. }
  split; [vm_compute; auto|].
  split; [intros fmt; rewrite DI; vm_compute; intuition|].
  split.
  { intros fmt kws H. apply dget_In in H. vm_compute in H. repeat destruct H as [H|H]; try contradiction H; injection H as <- <-; reflexivity. }
  split.
  { intros fmt H. vm_compute in H. repeat destruct H as [<-|H]; try contradiction H; do 4 eexists; (split; [vm_compute; reflexivity|]);
      (split; [vm_compute; reflexivity|]); (split; [vm_compute; reflexivity|]); (split; [vm_compute; reflexivity|]); split; discriminate. }
  split.
  { intros max fmt kws H. apply dget_In in H. destruct max; vm_compute in H; repeat destruct H as [H|H]; try contradiction H; injection H as <- <-; vm_compute; auto 10. }
  intros c fmt kws w H Hw. apply dget_In in H.
  assert (G : forallb (fun c => forallb (fun fk : string * dict string => forallb (fun w => match dget w keywords with
        | Some known => forallb (fun k => smem k known) (dkeys (snd fk)) | None => false end) (writers_of (fst fk))) (in_place_table c))
      [Ascii; Binary; Compress true; Compress false; Decompress] = true) by (vm_compute; reflexivity).
  rewrite forallb_forall in G. specialize (G c). rewrite forallb_forall in G. specialize (G ltac:(destruct c as [| |[]|]; cbn; auto 6) _ H).
  rewrite forallb_forall in G. specialize (G w Hw). destruct (dget w keywords) as [known|]; [|discriminate G].
  exists known. split; [reflexivity|]. intros k Hk. rewrite forallb_forall in G. apply smem_In. apply G. exact Hk.
Qed.
Print Assumptions C75_commands.
