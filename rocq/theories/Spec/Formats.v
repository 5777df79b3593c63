(** What the documentation says about file formats and extensions (README.md:25-53), and what the commands are for. *)
From Verif.Lib Require Import Base Text.

(** Two names that differ in the case of letters only *)
Definition upper_code (n : nat) : nat := if (Nat.leb 97 n && Nat.leb n 122)%bool then n - 32 else n.
Fixpoint same_but_case (s t : string) : Prop :=
  match s, t with
  | EmptyString, EmptyString => True
  | String a s', String b t' => upper_code (nat_of_ascii a) = upper_code (nat_of_ascii b) /\ same_but_case s' t'
  | _, _ => False
  end.
Fixpoint only_dots (s : string) : Prop :=
  match s with EmptyString => True | String a s' => a = "."%char /\ only_dots s' end.
(** A file name with an extension (with its dot); a name that is nothing but dots before the extension has none. *)
Definition has_extension (name ext : string) : Prop :=
  exists stem e, name = (stem ++ e)%string /\ ~ only_dots stem /\ same_but_case e ext.

(** Extension, the formats that are tried when a file is read, and the writer that a file goes to *)
Definition documented : list (string * list string * string) := [
  (".inp", ["abaqus"], "abaqus"); (".msh", ["ansys"; "gmsh"], "ansys"); (".avs", ["avsucd"], "avsucd");
  (".cgns", ["cgns"], "cgns"); (".xml", ["dolfin-xml"], "dolfin-xml"); (".e", ["exodus"], "exodus"); (".exo", ["exodus"], "exodus");
  (".f3grid", ["flac3d"], "flac3d"); (".h5m", ["h5m"], "h5m"); (".mdpa", ["mdpa"], "mdpa"); (".mesh", ["medit"], "medit");
  (".meshb", ["medit"], "medit"); (".med", ["med"], "med"); (".bdf", ["nastran"], "nastran"); (".fem", ["nastran"], "nastran");
  (".nas", ["nastran"], "nastran"); (".vol", ["netgen"], "netgen"); (".vol.gz", ["netgen"], "netgen"); (".obj", ["obj"], "obj");
  (".off", ["off"], "off"); (".post", ["permas"], "permas"); (".post.gz", ["permas"], "permas"); (".dato", ["permas"], "permas");
  (".dato.gz", ["permas"], "permas"); (".ply", ["ply"], "ply"); (".stl", ["stl"], "stl"); (".dat", ["tecplot"], "tecplot");
  (".node", ["tetgen"], "tetgen"); (".ele", ["tetgen"], "tetgen"); (".svg", ["svg"], "svg"); (".su2", ["su2"], "su2");
  (".ugrid", ["ugrid"], "ugrid"); (".vtk", ["vtk"], "vtk 5.1"); (".vtu", ["vtu"], "vtu"); (".wkt", ["wkt"], "wkt");
  (".xdmf", ["xdmf"], "xdmf"); (".xmf", ["xdmf"], "xdmf") ].

(** The formats that have a text and a binary variant *)
Definition text_or_binary : list string := ["ansys"; "flac3d"; "gmsh"; "mdpa"; "ply"; "stl"; "vtk"; "vtu"].
(** The formats with compressed arrays *)
Definition compressible : list string := ["cgns"; "h5m"; "vtu"; "xdmf"].
(** The variants of a format that have a writer of their own *)
Definition variants : list (string * list string) := [("gmsh", ["gmsh 2.2"; "gmsh 4.1"]); ("vtk", ["vtk 4.2"; "vtk 5.1"])].
Definition writers_of (fmt : string) : list string := match dget fmt variants with Some l => l | None => [fmt] end.
