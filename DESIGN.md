# Formal model of meshio in Rocq (Coq 8.16.1)

## What is here

* `properties.jsonl` - the properties, one JSON object per line.
* `rocq/theories/Lib/*.v` - generic lists, text and byte libraries (no meshio content).
* `rocq/theories/Model/*.v` - the model: computable Gallina functions, each with a
  comment citing the file and lines of `/repo` it models.  No proofs in there.
* `rocq/theories/Spec/*.v` - small independent specifications used to state theorems
  (e.g. "the merged list of blocks", "a partition", "same geometry").
* `rocq/theories/Proofs/*.v` - lemmas and proofs.
* `rocq/theories/Props/*.v` - the property theorems only, each closed by `exact`,
  each followed by `Print Assumptions`, with the non-vacuity `Example`s beside them.
* `MANIFEST.json` - which theorem belongs to which property.
* `seeded/LOG.jsonl` - bugs seeded in scratch copies and the theorems that caught them.

## Modelling conventions

* Exceptions are values: `result A = Ok a | Err e` with `e` naming the Python
  exception class (ReadError, WriteError, KeyError, IndexError, ValueError,
  AssertionError, TypeError, SystemExit ...).
* A Python `dict` is an association list in insertion order with the dict update
  semantics (existing key keeps its position).
* numpy integer arrays are lists of `Z` (`nat` where the value is a length or an
  in-range position); a cells array is a list of rows.  Fixed-width integers are
  modelled by explicit little/big-endian byte encoders with their range stated.
* Floating point numbers are values of an abstract type `V` (or `Z` where only the
  ring structure matters).  Formatting/parsing of a float in text formats is a pair
  of functions with the explicit hypothesis `parse (print v) = Some v` (and
  "the printed token contains no separator") in the theorem.
* zlib/lzma compression, HDF5 and XML containers are parameters or abstract maps;
  assumptions about them are hypotheses of the theorem concerned.
* Loops are folds or structural recursion; parsers over streams use fuel and return
  an error on exhaustion, and theorems exclude that case.
* `*_refuted` theorems: the property, as a user would state it, is false of the
  faithful model; the witness is a concrete input.  The companion theorem
  states the exact region in which the property does hold.

## Trusted base

* Coq's kernel (8.16.1) and `vm_compute`.  No axiom is used: `Print Assumptions` stands under every property theorem and
  prints "Closed under the global context" for each of them (all theorems of `rocq/theories/Props`, checked in one run over
  the complete list).  `coqchk` additionally names a few axioms of `Coq.ssr.ssrunder`, a module of the standard library
  that is loaded and not used.
* The reading of the Python source: the code was never executed.  Each definition of `Model/` cites the lines it models.
* Python, numpy, h5py, netCDF4, zlib, lzma and ElementTree behave as their documentation says, as far as described in the
  model files and in the section "What is modelled and what is not".
* Hypotheses of theorems about foreign code, always visible in the statement: a printed number is parsed as the same
  number and its text has no separators (text formats); a codec decodes what it encodes (binary formats); decompression
  inverts compression; in C45 coordinates are elements of an ordered ring (exact arithmetic).

## What is modelled and what is not

| source (`src/meshio/`) | model | left out or simplified |
|----|----|----|
| `_mesh.py`, `_common.py` | Core, Effects | conversion by `np.asarray` is the identity; `__repr__`, `copy`, deprecated wrappers; `warn` and other terminal output |
| `_helpers.py`, `_files.py`, `_exceptions.py` | Helpers | format readers and writers are arbitrary functions there; a path is its last component, in ASCII; opening of files |
| `_cli/*.py` | Info, Cli | argument parsing, messages and printed sizes |
| `_vtk_common.py`, `vtk/_main.py`, `vtk/_vtk_42.py`, `vtk/_vtk_51.py` | Vtk, VtkFile, Effects | short files and tokens that are no numbers are errors (numpy returns what it has); no promotion of dtypes in RECTILINEAR_GRID; LOOKUP_TABLE in binary files; COLOR_SCALARS; conversion of sets is in Effects |
| `vtu/_vtu.py`, `_cxml/etree.py` | Vtu, VtuFile, Cxml, Effects | ElementTree is modelled by Cxml for elements, attributes, text, comments and named entities (no CDATA, DTD, processing instructions, numeric references); header types are the unsigned integers; polyhedra as arrays only (C21), not in whole files; a damaged array outside PointData is a ReadError; ASCII files print reals with 12 digits, so the theorem is about numbers that survive this |
| `gmsh/main.py`, `gmsh/common.py` | Gmsh, Port | comments before the header of binary files; data size 8 and little endian |
| `gmsh/_gmsh22.py` | Gmsh22, Gmsh22Bin | ASCII and binary files |
| `gmsh/_gmsh40.py`, `gmsh/_gmsh41.py` | Msh40, Msh41, Port | physical groups and data named like the keys meshio uses itself (`gmsh:...`); parametric nodes are an error as in the code |
| `stl/_stl.py` | Stl | - |
| `obj/_obj.py`, `off/_off.py`, `wkt/_wkt.py` | Obj, Off, Wkt | texture and normal coordinates of OBJ are counted, not kept; ASCII digits and blanks |
| `ply/_ply.py` | Ply | see the comments of Ply; list properties of vertices |
| `neuroglancer/_neuroglancer.py` | Neuroglancer | - |
| `tetgen/_tetgen.py`, `ugrid/_ugrid.py`, `su2/_su2.py` | Tetgen, Ugrid, Su2 | negative counts are errors |
| `xdmf/common.py`, `xdmf/main.py`, `xdmf/time_series.py` | Xdmf | the XML tree is given (ElementTree writes and reads it unchanged, except that an empty text becomes None); HDF5 is a map from names to arrays; XDMF 2, Information, Reference |
| `abaqus/_abaqus.py` | Abaqus | pathlib's normalisation of the paths of included files |
| `medit/_medit.py`, `medit/_medit_internal.py` | Medit | warnings |
| `exodus/_exodus.py` | Exodus | netCDF is a list of named variables; dtypes |
| `mdpa/_mdpa.py` | Mdpa | contents of data sections after writing (the reader skips them) |
| `flac3d/_flac3d.py` | Flac3d, Effects | the determinant is exact |
| `permas/_permas.py`, `avsucd/_avsucd.py`, `tecplot/_tecplot.py`, `netgen/_netgen.py` | Permas, Avsucd, Tecplot, Netgen | NSET/ESET contents (dropped by the reader); zones with quoted titles in Tecplot; labels that occur twice with different sizes in AVS-UCD |
| `ansys/_ansys.py`, `dolfin/_dolfin.py`, `nastran/_nastran.py` | Ansys, Dolfin, Nastran | negative counts; the text of the DOLFIN XML files (their tree is given) |
| `hmf/_hmf.py`, `cgns/_cgns.py`, `h5m/_h5m.py`, `med/_med.py` | Hdf, Med, Hdf5, Numpy | HDF5 is a tree with sorted names; storage and compression; MED profiles and several time steps; ASCII family names |
| `svg/_svg.py` | Svg | doubles are rational numbers; the characters that ElementTree writes |

Non-mutation of the caller's mesh (C57) is modelled for the writers that assign to it; that all others do not was checked
by reading them.

## Plan per property

(M = what is modelled, P = how it is proved)

| id | model and proof |
|----|------|
| C01 | M `Mesh.__init__` as a `result`-valued function over dict/list structures. P equivalence with an independent `consistent` predicate, by induction on the dicts. |
| C02 | M `cells_dict`, `get_cells_type`. P equality with `concat (filter type)`, key order = order of first occurrence. |
| C03 | M `cell_data_dict`, `get_cell_data`. P pairing with cells via `combine`/`nth_error`. |
| C04 | M `cell_sets_dict` with `None` entries. P full characterisation when no `None`; refuted witness with `None`. |
| C05 | M both conversions. P scatter characterisation (last set wins) and inversion on partitions. |
| C06 | as C05 for points. |
| C07 | M `cell_data_to_sets`. P via sorted-unique tags. |
| C08 | M `join_strings`, Python `str.join`/`split`. P induction on characters. |
| C09 | M `replace_space`. P induction on characters. |
| C10 | M cumsum/np.split/concatenate. P induction on blocks. |
| C11 | M registry as state machine. P refinement to a history-defined spec; refuted for duplicate registration on one extension and for writer aliases. |
| C12 | M `read`, `_read_file`, `_read_buffer` over an oracle for readers. P induction on candidates. |
| C13 | M `Path.suffixes` and `_filetypes_from_path`. P induction on suffixes. |
| C14 | M `write`. P case analysis, event trace of writer calls. |
| C15 | M `_write_cells` and `translate_cells` on flat streams. P induction on blocks. |
| C16 | M offsets/connectivity writer and `vtk_cells_from_data`. P induction. |
| C17 | M order tables. P permutation composition lemma, finite table sweep lifted to all rows. |
| C18 | M `_generate_cells`/`_generate_points`. P arithmetic on mixed-radix indices. |
| C19 | M `_chunk_it`, header, reader. P induction, with compressor as parameter. |
| C20 | M size formula and reader. P arithmetic; base64 encoder modelled. |
| C21 | M face streams. P induction; refuted witness for cell data order. |
| C22 | as C17 for the Gmsh tables. |
| C23 | M text files as lines (`Model/Gmsh22.v`) and binary files as bytes (`Model/Gmsh22Bin.v`). P induction over blocks; the chunks of a binary file flatten to the elements of the text file. |
| C24 | M node/element/periodic sections at token level. P round trip, refuted periodic. |
| C25 | M grouping of nodes by entity. P permutation argument; refuted for point data. |
| C26 | M tag lookup of the three readers. P lookup lemma for injective tags. |
| C27 | M `data_from_facets` (np.unique with inverse). P correctness of sorted-unique. |
| C28 | M binary layout on bytes. P codec lemma and arithmetic on sizes. |
| C29-C37 | M writer and reader on lines of tokens or bytes. P round trips by induction, refuted witnesses for the deviations found. |
| C38 | M mixed stream writer/reader. P induction for types the reader knows; refuted for vertex and high order. |
| C39 | M writer/reader as state machine over histories. P induction on the history. |
| C40-C41 | M id maps, id lists over lines, set sections. P induction, refuted for sets over several blocks. |
| C42 | M byte writer/reader with positions. P chain invariant by induction over sections. |
| C43 | M token lists. P induction. |
| C44 | M field chunking, continuation, orders. P induction on lines; refuted for free and fixed-large. |
| C45 | M orders and determinant over Z (any commutative ring argument). P ring identities. |
| C46 | M set splitting. P/refuted by witness. |
| C47 | M reorder tables. P for unpermuted types, refuted for the rest. |
| C48-C50 | M as C29. |
| C51 | M substring search over the table. P finite sweep, refuted witness. |
| C52 | M running hexadecimal ranges. P induction. |
| C53 | M `categorize`. P coverage by induction; uniqueness refuted. |
| C54 | M block concatenation and data files. P single block; refuted for several. |
| C55 | M the HDF group as a sorted map. P per format; refuted for HMF. |
| C56 | M info check. refuted at the boundary; P otherwise. |
| C57 | M mutation effects as returned state. refuted per format; P for idempotent ones. |
| C58 | M all tables. P finite sweep over complete tables. |
| C59 | M the two core tables. refuted with all offending types; P for the others. |
| C60 | M name lines with shlex-like splitting. P induction over the table. |
| C61 | M netCDF files as lists of named variables, writer and reader. P fold over the variables, names parsed back. |
| C62 | M the readers' loops with fuel. P "for every fuel the reader is not finished" for the loops that never end; P no cut file is accepted (Nastran). |
| C63-C64 | M HDF5 trees. P round trip by folds over the members; refuted witnesses. |
| C65 | M set conversion with joined names. P for the good cases; refuted for the rest. |
| C66 | M periodic links in the MSH 4.1 file. P/refuted from the round trip of C25. |
| C67-C69 | M whole VTK files over a port (text or bytes). P one generic round trip, used for both modes; structured grids of all three kinds, with point and cell data, read from any file. |
| C70 | M VTU files as strings with an XML writer and parser. P parse of printed document, then array by array. |
| C71-C73 | M as C70. refuted from the theorem about documents of several pieces and by witnesses; C73 proved if no offsets collide (stored as they are or in compressed blocks): the loop that renames offsets keeps the offsets distinct, and a simulation between the two documents goes through the whole reader. |
| C74 | M convert over arbitrary readers, with Python's check of the size of a dictionary during iteration. P by cases; refuted for all meshes with data. |
| C75-C76 | M the complete registry and the in-place commands; what the ANSYS writer leaves when it fails. P sweep over the registered extensions lifted to all names; refuted for Gmsh files. |
| C77 | M the complete registry and the lookup of extensions. P the documented table (README) as specification, sweep over its entries lifted to all file names by the shape of the list of suffixes. |
| C78 | M whole PLY files: header, record arrays of points and point data, faces, text and binary, both byte orders (Model/PlyFile.v). P round trip for all storable meshes by induction over the property lines, rows and faces; limits by evaluation. |
| C79 | M as C78. P text files with numbers on faces, given line by line (Spec/PlyFile.v, face_file); the dictionary of values by face size against the blocks of neighbours: equal iff no size occurs in two blocks. |
| C80 | M the SVG writer over rational numbers; its output is the attributes and texts of the elements. P one path per drawn cell; bounds by the folds for minimum and maximum. |
| C81 | M as C67. P one lemma per attribute: the part of the file takes the reader from one state to the next (sect in Proofs/VtkFile.v); induction over attributes and sections (Proofs/VtkAttr.v). |
| C82 | M as C25, with the dimension check of CellBlock. A file of Gmsh is a record of entities, node blocks, element blocks and links, laid out by Spec/GmshFile.v. P one lemma per section over the port laws; the dictionaries of entities answer every lookup (Proofs/GmshFile.v); data sections by induction over them (Spec/Msh4Data.v, Proofs/Msh4Data.v). |
| C83 | M as C23, with the dimension check of CellBlock. A file of Gmsh is a record of names, nodes, elements, links and data, laid out by Spec/Msh2File.v. P one lemma per section; the columns of tags are complete, empty or of the wrong length, which is decided by counting (Proofs/Msh2File.v). Element data: Spec/Msh2Data.v, Proofs/Msh2Data.v. |
| C84 | M as C23, binary. P the groups of a file flatten to its elements; the sections that succeed and the first one that fails are one inductive relation (bends in Proofs/Msh2Bin.v). Element data: Spec/Msh2Data.v, Proofs/Msh2BinData.v. |
| C85 | M as C24, with the dimension check of CellBlock. The records of C82 in the layout of version 4.0 (Spec/Msh40File.v), data sections as C82. P as C82; the nodes, whose encodings differ, by one law per encoding (Proofs/Msh40File.v). |
| C86 | M as C40, with merge, the resolution of paths and a map from paths to lines as file system. P induction on the depth: reading the lines before the first INCLUDE commutes with what follows, each INCLUDE adds one mesh, and moving indices by offsets is associative (Proofs/AbaqusInclude.v). Spec in Spec/AbaqusInclude.v. |
| C87 | M as C23 and C25, with skip_comments and skip_to. P more steps than needed make no difference; an unknown section is one step that changes nothing (Proofs/GmshSkip.v, GmshMixed.v, GmshMixed40.v). Spec in Spec/GmshSkip.v. |
