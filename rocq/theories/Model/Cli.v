(** Model of the command line tools src/meshio/_cli/_convert.py, _ascii.py, _binary.py, _compress.py and _decompress.py, and of
    the registry they work with (the calls of [register_format] of all formats).  Not modelled: argparse, messages and the
    sizes that are printed. *)
From Verif.Lib Require Import Base Text.
From Verif.Model Require Import Core Helpers.

(** ** The registry *)
(** All calls of [register_format]: name, extensions, whether there is a reader, and the names of the writers with what they
    write.  In the order in which src/meshio/__init__.py:1-34 loads the modules: _cli comes first and loads those of
    _cli/_ascii.py:4 and _cli/_compress.py:4.  The lines are the last ones of each module: ansys/_ansys.py:465,
    flac3d/_flac3d.py:611, gmsh/main.py:105-113, mdpa/_mdpa.py:525, ply/_ply.py:531, stl/_stl.py:258, vtk/_main.py:37-46,
    vtu/_vtu.py:912, xdmf/main.py:551-556, cgns/_cgns.py:101, h5m/_h5m.py:271, abaqus/_abaqus.py:453, avsucd/_avsucd.py:243,
    dolfin/_dolfin.py:239, exodus/_exodus.py:373, hmf/_hmf.py:150-155, med/_med.py:460, medit/_medit.py:526,
    nastran/_nastran.py:540, netgen/_netgen.py:458, neuroglancer/_neuroglancer.py:80, obj/_obj.py:136, off/_off.py:95,
    permas/_permas.py:288-290, su2/_su2.py:373, svg/_svg.py:107, tecplot/_tecplot.py:508, tetgen/_tetgen.py:168,
    ugrid/_ugrid.py:279, wkt/_wkt.py:104 *)
Definition registrations : list (string * list string * bool * dict string) := [
  ("ansys", [".msh"], true, [("ansys", "ansys")]);
  ("flac3d", [".f3grid"], true, [("flac3d", "flac3d")]);
  ("gmsh", [".msh"], true, [("gmsh22", "gmsh 2.2"); ("gmsh", "gmsh 4.1")]);
  ("mdpa", [".mdpa"], true, [("mdpa", "mdpa")]);
  ("ply", [".ply"], true, [("ply", "ply")]);
  ("stl", [".stl"], true, [("stl", "stl")]);
  ("vtk", [".vtk"], true, [("vtk42", "vtk 4.2"); ("vtk51", "vtk 4.2"); ("vtk", "vtk 5.1")]);
  ("vtu", [".vtu"], true, [("vtu", "vtu")]);
  ("xdmf", [".xdmf"; ".xmf"], true, [("xdmf", "xdmf")]);
  ("cgns", [".cgns"], true, [("cgns", "cgns")]);
  ("h5m", [".h5m"], true, [("h5m", "h5m")]);
  ("abaqus", [".inp"], true, [("abaqus", "abaqus")]);
  ("avsucd", [".avs"], true, [("avsucd", "avsucd")]);
  ("dolfin-xml", [".xml"], true, [("dolfin-xml", "dolfin-xml")]);
  ("exodus", [".e"; ".exo"; ".ex2"], true, [("exodus", "exodus")]);
  ("hmf", [".hmf"], true, [("hmf", "hmf")]);
  ("med", [".med"], true, [("med", "med")]);
  ("medit", [".mesh"; ".meshb"], true, [("medit", "medit")]);
  ("nastran", [".bdf"; ".fem"; ".nas"], true, [("nastran", "nastran")]);
  ("netgen", [".vol"; ".vol.gz"], true, [("netgen", "netgen")]);
  ("neuroglancer", [], true, [("neuroglancer", "neuroglancer")]);
  ("obj", [".obj"], true, [("obj", "obj")]);
  ("off", [".off"], true, [("off", "off")]);
  ("permas", [".post"; ".post.gz"; ".dato"; ".dato.gz"], true, [("permas", "permas")]);
  ("su2", [".su2"], true, [("su2", "su2")]);
  ("svg", [".svg"], false, [("svg", "svg")]);
  ("tecplot", [".dat"; ".tec"], true, [("tecplot", "tecplot")]);
  ("tetgen", [".ele"; ".node"], true, [("tetgen", "tetgen")]);
  ("ugrid", [".ugrid"], true, [("ugrid", "ugrid")]);
  ("wkt", [".wkt"], true, [("wkt", "wkt")]) ].

(** The registry after [import meshio]; [rd] are the readers. *)
Definition default_registry {R} (rd : string -> R) : registry R string :=
  fold_left (fun (r : registry R string) (x : string * list string * bool * dict string) => let '(n, es, has, ws) := x in register_format n es (if has then Some (rd n) else None) ws r)
    registrations empty_registry.

(** The keyword arguments that the writers accept: the signatures abaqus/_abaqus.py:402, ansys/_ansys.py:391,
    avsucd/_avsucd.py:147, cgns/_cgns.py:43, dolfin/_dolfin.py:216, exodus/_exodus.py:262, flac3d/_flac3d.py:423,
    gmsh/main.py:88,109-110, h5m/_h5m.py:116, hmf/_hmf.py:59, mdpa/_mdpa.py:433, med/_med.py:213, medit/_medit.py:300,
    nastran/_nastran.py:296, netgen/_netgen.py:352, neuroglancer/_neuroglancer.py:18, obj/_obj.py:102, off/_off.py:55,
    permas/_permas.py:223, ply/_ply.py:394, stl/_stl.py:184, su2/_su2.py:249, svg/_svg.py:11, tecplot/_tecplot.py:379,
    tetgen/_tetgen.py:92, ugrid/_ugrid.py:154, vtk/_vtk_42.py:602, vtk/_vtk_51.py:483, vtu/_vtu.py:594, wkt/_wkt.py:73,
    xdmf/main.py:337-339,546 *)
Definition keywords : dict (list string) := [
  ("abaqus", ["float_fmt"; "translate_cell_names"]); ("ansys", ["binary"]); ("avsucd", []);
  ("cgns", ["compression"; "compression_opts"]); ("dolfin-xml", []); ("exodus", []); ("flac3d", ["float_fmt"; "binary"]);
  ("gmsh 2.2", ["binary"; "float_fmt"]); ("gmsh 4.1", ["binary"; "float_fmt"]);
  ("h5m", ["add_global_ids"; "compression"; "compression_opts"]); ("hmf", ["compression"; "compression_opts"]);
  ("mdpa", ["float_fmt"; "binary"]); ("med", []); ("medit", ["float_fmt"]); ("nastran", ["point_format"; "cell_format"]);
  ("netgen", ["float_fmt"]); ("neuroglancer", []); ("obj", []); ("off", []); ("permas", []); ("ply", ["binary"]);
  ("stl", ["binary"]); ("su2", []); ("svg", ["float_fmt"; "stroke_width"; "image_width"; "fill"; "stroke"]); ("tecplot", []);
  ("tetgen", ["float_fmt"]); ("ugrid", []); ("vtk 4.2", ["binary"]); ("vtk 5.1", ["binary"]);
  ("vtu", ["binary"; "compression"; "header_type"]); ("wkt", []); ("xdmf", ["data_format"; "compression"; "compression_opts"]) ].

(** ** meshio convert *)
(** [for key in d: step(key)]: before each step, and once more at the end, Python raises RuntimeError if the size of the
    dictionary is no longer what it was at the beginning ([n]). *)
Fixpoint dict_loop {M} (size : M -> nat) (n : nat) (step : string -> M -> result M) (keys : list string) (m : M) : result M :=
  if negb (Nat.eqb (size m) n) then Err RuntimeError
  else match keys with [] => Ok m | k :: ks => do m' <- step k m; dict_loop size n step ks m' end.

Record convert_args : Type := ConvertArgs {
  input_format : option string; output_format : option string; ascii_ : bool; float_format : option string;
  sets_to_int_data : bool; int_data_to_sets : bool }.

Section Convert.
Context {F File : Type}.
(** _convert.py:57-66 *)
Definition convert_sets (a : convert_args) (m : mesh F) : result (mesh F) :=
  do m1 <- (if sets_to_int_data a then do x <- point_sets_to_data "-" m; cell_sets_to_data None x else Ok m);
  if int_data_to_sets a then
    do m2 <- dict_loop (fun m => length (point_data m)) (length (point_data m1)) point_data_to_sets (dkeys (point_data m1)) m1;
    dict_loop (fun m => length (cell_data m)) (length (cell_data m2)) cell_data_to_sets (dkeys (cell_data m2)) m2
  else Ok m1.
(** _convert.py:68-73: the keyword arguments besides file_format *)
Definition convert_keywords (a : convert_args) : dict string :=
  match float_format a with Some f => [("float_fmt", f)] | None => [] end ++ (if ascii_ a then [("binary", "False")] else []).
(** The blocks of a mesh as write() sees them.  Simplification: an empty block has the number of columns of its type. *)
Definition block_width (b : block) : nat :=
  match bdata b, dget (btype b) num_nodes_per_cell with c :: _, _ => length c | [], Some n => n | [], None => 0 end.
Definition shapes (m : mesh F) : list wblock := map (fun b => WBlock (btype b) [blen b; block_width b]) (cells m).
(** A call of a writer: which one, its keyword arguments, the mesh *)
Record call : Type := Call { c_writer : string; c_keywords : dict string; c_mesh : mesh F }.
(** _convert.py:50-75 [convert]: the call of the writer of the output file, or the exception raised before a writer is
    running.  A keyword that the writer does not know is a TypeError. *)
Definition convert (r : registry (reader File (mesh F)) string) (a : convert_args) (in_exists : bool) (infile : string) (f : File)
    (outfile : string) : result call :=
  do m <- snd (read_file r in_exists infile (input_format a) f);
  do m' <- convert_sets a m;
  do w <- write r (PathTo outfile) (output_format a) (shapes m');
  let kws := convert_keywords a in
  match dget w keywords with
  | Some l => if forallb (fun k => smem k l) (dkeys kws) then Ok (Call w kws m') else Err TypeError
  | None => Err TypeError
  end.
End Convert.
Arguments call : clear implicits.
Arguments Call {F} _ _ _.

(** ** meshio ascii, binary, compress, decompress *)
Inductive command : Type := Ascii | Binary | Compress (max : bool) | Decompress.
(** _ascii.py:37-57, _binary.py:36-57, _compress.py:44-77, _decompress.py:37-47: format, and keyword arguments of its writer *)
Definition in_place_table (c : command) : dict (dict string) :=
  match c with
  | Ascii => map (fun f => (f, [("binary", "False")])) ["ansys"; "flac3d"; "gmsh"; "mdpa"; "ply"; "stl"; "vtk"; "vtu"] ++
             [("xdmf", [("data_format", "XML")])]
  | Binary => map (fun f => (f, [("binary", "True")])) ["ansys"; "flac3d"; "gmsh"; "mdpa"; "ply"; "stl"; "vtk"; "vtu"] ++
             [("xdmf", [("data_format", "HDF")])]
  | Compress max =>
      let gzip := [("compression", "gzip"); ("compression_opts", if max then "9" else "4")] in
      [("ansys", [("binary", "True")]); ("cgns", gzip); ("gmsh", [("binary", "True")]); ("h5m", gzip);
       ("mdpa", [("binary", "True")]); ("ply", [("binary", "True")]); ("stl", [("binary", "True")]); ("vtk", [("binary", "True")]);
       ("vtu", [("binary", "True"); ("compression", if max then "lzma" else "zlib")]); ("xdmf", ("data_format", "HDF") :: gzip)]
  | Decompress =>
      [("cgns", [("compression", "None")]); ("h5m", [("compression", "None")]);
       ("vtu", [("binary", "True"); ("compression", "None")]); ("xdmf", [("data_format", "HDF"); ("compression", "None")])]
  end.

Section InPlace.
Context {M File : Type}.
(** What an in-place command does: the readers it calls, and the writer that is called with the name of the file (format,
    keyword arguments, mesh).  [Err SystemExit] stands for the exit code 1.  _ascii.py:24-62 and the same lines of the
    others. *)
Definition in_place (r : registry (reader File M) string) (c : command) (exists_ : bool) (name : string) (input : option string)
    (f : File) : list string * result (string * dict string * M) :=
  match (match given input with Some ff => Ok ff | None => do l <- filetypes_from_path r name; of_option IndexError (hd_error l) end) with
  | Err e => ([], Err e)
  | Ok fmt =>
      if negb exists_ then ([], Err OSError) else
      let '(tr, out) := read_file r true name input f in
      (tr, do m <- out;
           match dget fmt (in_place_table c) with
           | Some kws => Ok (fmt, kws, m)
           | None => Err SystemExit
           end)
  end.

(** The file afterwards: a writer turns the file into what it has written when it returns or raises. *)
Definition in_place_file (writers : string -> dict string -> M -> File -> File) r c exists_ name input (f : File) : File :=
  match snd (in_place r c exists_ name input f) with
  | Ok (fmt, kws, m) => writers fmt kws m f
  | Err _ => f
  end.
End InPlace.
