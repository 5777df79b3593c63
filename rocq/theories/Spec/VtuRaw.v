(** Specification vocabulary for VTU files with appended raw data (C73). *)
From Coq Require Import ZArith NArith List String Ascii Bool Permutation.
From Verif.Lib Require Import Base Text Lines Bytes File.
From Verif.Model Require Import Core Cxml VtkFile VtuFile.
Import ListNotations.

(** An array of the appended data: what is in the file, and what it means *)
Record stored : Type := Stored { in_file : bytes; content : bytes }.
(** Numbers of [w] bytes without sign, one after the other *)
Definition numbers_of (big : bool) (w : nat) (l : list N) : bytes := concat (map (uint_bytes big w) l).
(** Without compression: the size in bytes, an unsigned number of [w] bytes, and the bytes *)
Definition sized (big : bool) (w : nat) (d : bytes) : bytes := uint_bytes big w (N.of_nat (length d)) ++ d.
Definition plain (big : bool) (w : nat) (p : stored) : Prop := in_file p = sized big w (content p).
(** With compression: the number of blocks, two numbers (the sizes of the blocks before compression), the sizes of the
    compressed blocks, and the blocks.  [unpack] is the decompressor, [blocks] pairs each compressed block with its content. *)
Definition packed (unpack : bytes -> result bytes) (big : bool) (w : nat) (p : stored) : Prop :=
  exists full last (blocks : list (bytes * bytes)),
    in_file p = numbers_of big w (N.of_nat (length blocks) :: full :: last :: map (fun b => N.of_nat (length (fst b))) blocks)
                ++ concat (map fst blocks) /\
    content p = concat (map snd blocks) /\
    Forall (fun b => unpack (fst b) = Ok (snd b)) blocks /\
    (N.of_nat (length blocks) < capacity w)%N /\ Forall (fun b => (N.of_nat (length (fst b)) < capacity w)%N) blocks.
Definition appended (arrays : list stored) : bytes := concat (map in_file arrays).

(** Where things of the given lengths begin if they follow each other, the first at [from] *)
Fixpoint starts (from : nat) (lengths : list nat) : list nat :=
  match lengths with [] => [] | n :: l => from :: starts (from + n) l end.
(** The offsets of the arrays in the file, and those that they have after the content of each of them, with its size in front,
    has been encoded: three bytes are four characters *)
Definition file_offsets (arrays : list stored) : list nat := starts 0 (map (fun p => length (in_file p)) arrays).
Definition text_offsets (w : nat) (arrays : list stored) : list nat :=
  starts 0 (map (fun p => 4 * ((w + length (content p) + 2) / 3)) arrays).
(** No array's new offset is the offset of a later array in the file. *)
Definition no_collision (w : nat) (arrays : list stored) : Prop :=
  forall i j a b, i < j -> nth_error (text_offsets w arrays) i = Some a -> nth_error (file_offsets arrays) j = Some b -> a <> b.

(** The offsets of the elements DataArray below an element, in document order *)
Definition own_offset (n : xnode) : list string :=
  if String.eqb (xtag n) "DataArray" then match dget "offset" (xattrs n) with Some o => [o] | None => [] end else [].
Fixpoint offsets (n : xnode) : list string :=
  match n with XNode _ _ _ cs => flat_map (fun c => own_offset c ++ offsets c) cs end.
Definition is_appended (attrs : dict string) : bool :=
  match dget "format" attrs with Some f => String.eqb f "appended" | None => false end.
(** Only elements DataArray refer to appended data. *)
Fixpoint only_arrays (n : xnode) : bool :=
  match n with
  | XNode t a _ cs =>
      (String.eqb t "DataArray" || negb (is_appended a)) && forallb only_arrays cs
  end.

(** The document in which each array is a binary array in the text of its element: [src] says which array an offset means. *)
Definition inline_one (big : bool) (w : nat) (src : dict bytes) (n : xnode) : xnode :=
  let 'XNode t a x cs := n in
  match dget "offset" a with
  | Some o =>
      match dget o src with
      | Some d => if String.eqb t "DataArray" && is_appended a then XNode t (dset "format" "binary" a) (b64encode (sized big w d)) cs else n
      | None => n
      end
  | None => n
  end.
Fixpoint inline (big : bool) (w : nat) (src : dict bytes) (n : xnode) : xnode :=
  match n with XNode t a x cs => XNode t a x (map (fun c => inline_one big w src (inline big w src c)) cs) end.
Definition sources (arrays : list stored) : dict bytes := combine (map str_of_nat (file_offsets arrays)) (map content arrays).
(** Nothing is compressed in this document. *)
Definition inline_document (big : bool) (w : nat) (arrays : list stored) (root : xnode) : xnode :=
  let 'XNode t a x cs := root in
  inline big w (sources arrays) (XNode t (filter (fun kv => negb (String.eqb (fst kv) "compressor")) a) x (filter (fun c => negb (String.eqb (xtag c) "AppendedData")) cs)).

(** A file with raw data: [head] ends with the opening tag of the element AppendedData, [foot] begins with its closing tag. *)
Definition raw_text (head gap : chars) (data : bytes) (gap' foot : chars) : chars :=
  head ++ gap ++ "_"%char :: map ascii_of_N data ++ lf :: gap' ++ foot.
(** [p] occurs in [s] at position [k], and not before *)
Definition first_at (p s : chars) (k : nat) : Prop :=
  (exists r, skipn k s = p ++ r) /\ forall j, j < k -> ~ exists r, skipn j s = p ++ r.
(** [s] is a file with the given arrays as raw data; without the data it is the document [root]. *)
Inductive raw_vtu_file (arrays : list stored) (root : xnode) : chars -> Prop :=
| RawFile before body gap gap' after :
    let head := before ++ ch "<AppendedData" ++ body ++ [">"%char] in
    let foot := ch "</AppendedData>" ++ after in
    let s := raw_text head gap (appended arrays) gap' foot in
    first_at (ch "<AppendedData") s (length before) ->
    (exists b c, body = b ++ [c; quote]) -> ~ In ">"%char body -> ~ In "_"%char gap -> ~ In lf gap' ->
    first_at (ch "</AppendedData>") s (length s - length foot) ->
    parse_doc (head ++ foot) = Some root -> parse_doc s = None ->
    raw_vtu_file arrays root s.
(** The document of such a file: no compression, or one of the two compressors that the reader knows; one element AppendedData,
    at the end; every array of the data belongs to one
    element DataArray, and the other way round. *)
Record raw_document (pk : packers) (big : bool) (w : nat) (arrays : list stored) (root : xnode) : Prop := RawDocument {
  rd_order : dget "byte_order" (xattrs root) = Some (if big then "BigEndian" else "LittleEndian");
  rd_header : dget (match dget "header_type" (xattrs root) with Some t => t | None => "UInt32" end) header_widths = Some w;
  rd_arrays : match dget "compressor" (xattrs root) with
              | None => Forall (plain big w) arrays
              | Some c => In c ["vtkLZMADataCompressor"; "vtkZLibDataCompressor"]%string /\ Forall (packed (unpack pk c) big w) arrays
              end;
  rd_children : exists cs a x l, xchildren root = cs ++ [XNode "AppendedData" a x l] /\ Forall (fun c => xtag c <> "AppendedData") cs;
  rd_only : forallb only_arrays (xchildren root) = true;
  rd_offsets : Permutation (offsets root) (map str_of_nat (file_offsets arrays));
  rd_bytes : Forall (fun p => Forall is_byte (in_file p) /\ Forall is_byte (content p) /\ (N.of_nat (length (content p)) < capacity w)%N) arrays }.
