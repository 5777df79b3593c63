(** Type tables of the formats that have no model file of their own yet, and the inversion of a table. *)
From Verif.Lib Require Import Base.
From Verif.Model Require Import Core.

(** [{v: k for k, v in d.items()}]: of several keys with the same value the last one wins. *)
Definition invert (d : dict string) : dict string := rev (map (fun kv => (snd kv, fst kv)) d).

(** src/meshio/nastran/_nastran.py:16-43 [nastran_to_meshio_type] *)
Definition nastran_to_meshio_type : dict string := [
  ("CELAS1", "vertex"); ("CBEAM", "line"); ("CBUSH", "line"); ("CBUSH1D", "line"); ("CROD", "line");
  ("CGAP", "line"); ("CBAR", "line"); ("CTRIAR", "triangle"); ("CTRIA3", "triangle"); ("CTRAX6", "triangle6");
  ("CTRIAX6", "triangle6"); ("CTRIA6", "triangle6"); ("CQUADR", "quad"); ("CSHEAR", "quad"); ("CQUAD4", "quad");
  ("CQUAD8", "quad8"); ("CQUAD9", "quad9"); ("CTETRA", "tetra"); ("CTETRA_", "tetra10"); ("CPYRAM", "pyramid");
  ("CPYRA", "pyramid"); ("CPYRA_", "pyramid13"); ("CPENTA", "wedge"); ("CPENTA_", "wedge15");
  ("CHEXA", "hexahedron"); ("CHEXA_", "hexahedron20") ].
(** src/meshio/nastran/_nastran.py:45 *)
Definition meshio_to_nastran_type : dict string := invert nastran_to_meshio_type.

(** src/meshio/permas/_permas.py:14-56 [permas_to_meshio_type] *)
Definition permas_to_meshio_type : dict string := [
  ("PLOT1", "vertex"); ("PLOTL2", "line"); ("FLA2", "line"); ("FLA3", "line3"); ("PLOTL3", "line3");
  ("BECOS", "line"); ("BECOC", "line"); ("BETAC", "line"); ("BECOP", "line"); ("BETOP", "line"); ("BEAM2", "line");
  ("FSCPIPE2", "line"); ("LOADA4", "quad"); ("PLOTA4", "quad"); ("QUAD4", "quad"); ("QUAD4S", "quad");
  ("QUAMS4", "quad"); ("SHELL4", "quad"); ("PLOTA8", "quad8"); ("LOADA8", "quad8"); ("QUAMS8", "quad8");
  ("PLOTA9", "quad9"); ("LOADA9", "quad9"); ("QUAMS9", "quad9"); ("PLOTA3", "triangle"); ("SHELL3", "triangle");
  ("TRIA3", "triangle"); ("TRIA3K", "triangle"); ("TRIA3S", "triangle"); ("TRIMS3", "triangle");
  ("LOADA6", "triangle6"); ("TRIMS6", "triangle6"); ("HEXE8", "hexahedron"); ("HEXFO8", "hexahedron");
  ("HEXE20", "hexahedron20"); ("HEXE27", "hexahedron27"); ("TET4", "tetra"); ("TET10", "tetra10");
  ("PYRA5", "pyramid"); ("PENTA6", "wedge"); ("PENTA15", "wedge15") ].
(** src/meshio/permas/_permas.py:57 *)
Definition meshio_to_permas_type : dict string := invert permas_to_meshio_type.

(** src/meshio/avsucd/_avsucd.py:14-23 [meshio_to_avsucd_type] *)
Definition meshio_to_avsucd_type : dict string := [
  ("vertex", "pt"); ("line", "line"); ("triangle", "tri"); ("quad", "quad"); ("tetra", "tet"); ("pyramid", "pyr");
  ("wedge", "prism"); ("hexahedron", "hex") ].
(** src/meshio/avsucd/_avsucd.py:24 *)
Definition avsucd_to_meshio_type : dict string := invert meshio_to_avsucd_type.

(** src/meshio/med/_med.py:14-30 [meshio_to_med_type] *)
Definition meshio_to_med_type : dict string := [
  ("vertex", "PO1"); ("line", "SE2"); ("line3", "SE3"); ("triangle", "TR3"); ("triangle6", "TR6"); ("quad", "QU4");
  ("quad8", "QU8"); ("tetra", "TE4"); ("tetra10", "T10"); ("hexahedron", "HE8"); ("hexahedron20", "H20");
  ("pyramid", "PY5"); ("pyramid13", "P13"); ("wedge", "PE6"); ("wedge15", "P15") ].
(** src/meshio/med/_med.py:31 *)
Definition med_to_meshio_type : dict string := invert meshio_to_med_type.

(** src/meshio/tecplot/_tecplot.py:42-53 [tecplot_to_meshio_type] *)
Definition tecplot_to_meshio_type : dict string := [
  ("LINESEG", "line"); ("FELINESEG", "line"); ("TRIANGLE", "triangle"); ("FETRIANGLE", "triangle");
  ("QUADRILATERAL", "quad"); ("FEQUADRILATERAL", "quad"); ("TETRAHEDRON", "tetra"); ("FETETRAHEDRON", "tetra");
  ("BRICK", "hexahedron"); ("FEBRICK", "hexahedron") ].
(** src/meshio/tecplot/_tecplot.py:56-64 [meshio_to_tecplot_type] *)
Definition meshio_to_tecplot_type : dict string := [
  ("line", "FELINESEG"); ("triangle", "FETRIANGLE"); ("quad", "FEQUADRILATERAL"); ("tetra", "FETETRAHEDRON");
  ("pyramid", "FEBRICK"); ("wedge", "FEBRICK"); ("hexahedron", "FEBRICK") ].

(** src/meshio/h5m/_h5m.py:40-48 [h5m_to_meshio_type] *)
Definition h5m_to_meshio_type : dict string := [
  ("Edge2", "line"); ("Hex8", "hexahedron"); ("Prism6", "wedge"); ("Pyramid5", "pyramid"); ("Quad4", "quad");
  ("Tri3", "triangle"); ("Tet4", "tetra") ].
(** src/meshio/h5m/_h5m.py:227-231 [meshio_to_h5m_type] *)
Definition meshio_to_h5m_type : dict string := [
  ("line", "Edge2"); ("triangle", "Tri3"); ("tetra", "Tet4") ].

(** src/meshio/dolfin/_dolfin.py:20-20 [dolfin_to_meshio_type] *)
Definition dolfin_to_meshio_type : dict (string * nat) := [
  ("triangle", ("triangle", 3)); ("tetrahedron", ("tetra", 4)) ].
(** src/meshio/dolfin/_dolfin.py:138-138 [meshio_to_dolfin_type] *)
Definition meshio_to_dolfin_type : dict string := [
  ("triangle", "triangle"); ("tetra", "tetrahedron") ].

(** src/meshio/netgen/_netgen.py:32-34 [netgen0d_to_meshio_type] *)
Definition netgen0d_to_meshio_type : zdict string := [
  (1%Z, "vertex") ].
(** src/meshio/netgen/_netgen.py:35-37 [netgen1d_to_meshio_type] *)
Definition netgen1d_to_meshio_type : zdict string := [
  (2%Z, "line") ].
(** src/meshio/netgen/_netgen.py:38-43 [netgen2d_to_meshio_type] *)
Definition netgen2d_to_meshio_type : zdict string := [
  (3%Z, "triangle"); (6%Z, "triangle6"); (4%Z, "quad"); (8%Z, "quad8") ].
(** src/meshio/netgen/_netgen.py:45-54 [netgen3d_to_meshio_type] *)
Definition netgen3d_to_meshio_type : zdict string := [
  (4%Z, "tetra"); (5%Z, "pyramid"); (6%Z, "wedge"); (8%Z, "hexahedron"); (10%Z, "tetra10"); (13%Z, "pyramid13");
  (15%Z, "wedge15"); (20%Z, "hexahedron20") ].

(** src/meshio/flac3d/_flac3d.py:20-43 [meshio_only] *)
Definition flac3d_zones : dict string := [
  ("tetra", "tetra"); ("tetra10", "tetra"); ("pyramid", "pyramid"); ("pyramid13", "pyramid"); ("wedge", "wedge");
  ("wedge12", "wedge"); ("wedge15", "wedge"); ("wedge18", "wedge"); ("hexahedron", "hexahedron");
  ("hexahedron20", "hexahedron"); ("hexahedron24", "hexahedron"); ("hexahedron27", "hexahedron") ].
(** src/meshio/flac3d/_flac3d.py:20-43 [meshio_only] *)
Definition flac3d_faces : dict string := [
  ("triangle", "triangle"); ("triangle6", "triangle"); ("triangle7", "triangle"); ("quad", "quad");
  ("quad8", "quad"); ("quad9", "quad") ].
(** src/meshio/flac3d/_flac3d.py:46-49 [numnodes_to_meshio_type] *)
Definition flac3d_zone_nodes : zdict string := [
  (4%Z, "tetra"); (5%Z, "pyramid"); (6%Z, "wedge"); (8%Z, "hexahedron") ].
(** src/meshio/flac3d/_flac3d.py:46-49 [numnodes_to_meshio_type] *)
Definition flac3d_face_nodes : zdict string := [
  (3%Z, "triangle"); (4%Z, "quad") ].
(** src/meshio/flac3d/_flac3d.py:52-59 [meshio_to_flac3d_type] *)
Definition meshio_to_flac3d_type : dict string := [
  ("triangle", "T3"); ("quad", "Q4"); ("tetra", "T4"); ("pyramid", "P5"); ("wedge", "W6"); ("hexahedron", "B8") ].

(** src/meshio/ansys/_ansys.py:424-433 [meshio_to_ansys_type] *)
Definition meshio_to_ansys_type : dict Z := [
  ("triangle", 1%Z); ("tetra", 2%Z); ("quad", 3%Z); ("hexahedron", 4%Z); ("pyramid", 5%Z); ("wedge", 6%Z) ].
(** src/meshio/ansys/_ansys.py:117-125, without the entry for mixed zones *)
Definition ansys_to_meshio_type : zdict (string * nat) := [
  (1%Z, ("triangle", 3)); (2%Z, ("tetra", 4)); (3%Z, ("quad", 4)); (4%Z, ("hexahedron", 8)); (5%Z, ("pyramid", 5));
  (6%Z, ("wedge", 6)) ].
