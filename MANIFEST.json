{
 "claims": [
  {
   "property": "C01",
   "status": "proved",
   "theorems": [
    "C01_constructor"
   ],
   "note": "Exact characterisation of accepted arguments; conversion by np.asarray is the identity in the model."
  },
  {
   "property": "C02",
   "status": "proved",
   "theorems": [
    "C02_cells_dict",
    "C02_cells_dict_keys",
    "C02_get_cells_type",
    "C02_position"
   ],
   "note": "cells_dict, its key order and get_cells_type for all block lists, plus the position of each cell."
  },
  {
   "property": "C03",
   "status": "proved",
   "theorems": [
    "C03_cell_data_dict_position",
    "C03_get_cell_data"
   ],
   "note": "Position-wise agreement of cell_data_dict with cells_dict, and get_cell_data."
  },
  {
   "property": "C04",
   "status": "partial",
   "theorems": [
    "C04_cell_sets_dict_partial",
    "C04_cell_sets_dict_refuted"
   ],
   "note": "The code violates the property when a set has a None entry for a block: the offset is not advanced (refuted). Proved when no block of the type has a None entry."
  },
  {
   "property": "C05",
   "status": "proved",
   "theorems": [
    "C05_cell_sets_to_data",
    "C05_roundtrip"
   ],
   "note": "Values for every family of sets; exact restoration for partitions with ascending members and names without '-'."
  },
  {
   "property": "C06",
   "status": "proved",
   "theorems": [
    "C06_point_sets_to_data",
    "C06_roundtrip"
   ],
   "note": "Values for every family; round trip restores names, order and members for partitions."
  },
  {
   "property": "C07",
   "status": "proved",
   "theorems": [
    "C07_cell_data_to_sets"
   ],
   "note": "Full characterisation of the produced sets."
  },
  {
   "property": "C08",
   "status": "proved",
   "theorems": [
    "C08_join_strings",
    "C08_fails_only_if_all_separators_occur"
   ],
   "note": "Splits back for nonempty lists; failure condition exact."
  },
  {
   "property": "C09",
   "status": "proved",
   "theorems": [
    "C09_replace_space",
    "C09_fails",
    "C09_no_collision"
   ],
   "note": "Reversible, length preserving, no collisions, failure condition exact."
  },
  {
   "property": "C10",
   "status": "proved",
   "theorems": [
    "C10_split_concat",
    "C10_concat_split",
    "C10_piece_lengths"
   ],
   "note": "Both directions and the piece lengths."
  },
  {
   "property": "C11",
   "status": "partial",
   "theorems": [
    "C11_reader",
    "C11_writer",
    "C11_extensions",
    "C11_deregister_partial",
    "C11_deregister_refuted"
   ],
   "note": "Readers, writers and extensions as functions of the whole history. Deregistering removes only one of two registrations of the same format for an extension (refuted); proved when it was registered at most once."
  },
  {
   "property": "C12",
   "status": "proved",
   "theorems": [
    "C12_read_deduced",
    "C12_read_explicit",
    "C12_no_file",
    "C12_buffer",
    "C12_reader_names_unique"
   ],
   "note": "Outcome and the sequence of called readers for arbitrary reader functions."
  },
  {
   "property": "C13",
   "status": "proved",
   "theorems": [
    "C13_deduction"
   ],
   "note": "File names with a nonempty stem; pathlib's suffixes is modelled for ASCII names."
  },
  {
   "property": "C14",
   "status": "proved",
   "theorems": [
    "C14_writer_called",
    "C14_malformed",
    "C14_format"
   ],
   "note": "Writer call condition exact; WriteError for malformed two-dimensional blocks (a one-dimensional block raises IndexError instead)."
  },
  {
   "property": "C15",
   "status": "proved",
   "theorems": [
    "C15_roundtrip",
    "C15_regroup_faithful",
    "C15_same_blocks",
    "C15_polygons"
   ],
   "note": "Cells and cell data for every list of blocks of the 17 constructible fixed-size VTK types; with polygons the cells survive and the cell data is shown to be dropped."
  },
  {
   "property": "C16",
   "status": "proved",
   "theorems": [
    "C16_vtk51",
    "C16_vtu",
    "C16_empty_block_error"
   ],
   "note": "Both writers, including polygons and Lagrange cells; nonempty blocks (an empty block raises IndexError, also proved)."
  },
  {
   "property": "C17",
   "status": "proved",
   "theorems": [
    "C17_to_vtk_and_back",
    "C17_to_meshio_and_back",
    "C17_wedge"
   ],
   "note": "Both directions for every type with a VTK number."
  },
  {
   "property": "C18",
   "status": "proved",
   "theorems": [
    "C18_cells",
    "C18_points",
    "C18_single_point"
   ],
   "note": "Exact corner list of every box for 1D, 2D and 3D grids in any orientation, and the point order; a single-point grid raises IndexError."
  },
  {
   "property": "C19",
   "status": "proved",
   "theorems": [
    "C19_roundtrip",
    "C19_block_size",
    "C19_empty"
   ],
   "note": "Every item size, block size, header type and byte order; compressor as an arbitrary invertible function; the empty array is shown to raise ValueError on reading."
  },
  {
   "property": "C20",
   "status": "proved",
   "theorems": [
    "C20_size",
    "C20_base64",
    "C20_roundtrip",
    "C20_separate_header"
   ],
   "note": "Size formula, base64 codec and both layouts of the uncompressed array, followed by arbitrary further encoded text."
  },
  {
   "property": "C21",
   "status": "partial",
   "theorems": [
    "C21_cells",
    "C21_cell_data_partial",
    "C21_cell_data_refuted"
   ],
   "note": "Cells proved for all polyhedra. Cell data lists come back in ascending order of node count while the blocks come back in order of first occurrence, so data is attached to the wrong cells in general (refuted); proved when the two orders agree."
  },
  {
   "property": "C22",
   "status": "proved",
   "theorems": [
    "C22_meshio_gmsh_meshio",
    "C22_gmsh_meshio_gmsh",
    "C22_node_positions"
   ],
   "note": "Both directions for every type and row, and agreement with the documented midpoint positions of Gmsh and VTK."
  },
  {
   "property": "C23",
   "status": "partial",
   "theorems": [
    "C23_roundtrip_partial",
    "C23_cells",
    "C23_refuted",
    "C23_binary_partial",
    "C23_binary_empty_refuted"
   ],
   "note": "The ASCII file is modelled line by line: points, merged cells, tags, names, periodic links, point data and cell data. Exact: reading fails exactly when there is further cell data that does not fit blocks of two cells (refuted in general, because the reader passes tuples to cell_data_from_raw). Binary files are modelled byte by byte and give the same mesh if all numbers fit 32 bits and no block is empty; with an empty block the file may be unreadable (C23_binary_empty_refuted) or the block may stay."
  },
  {
   "property": "C24",
   "status": "partial",
   "theorems": [
    "C24_ascii_partial",
    "C24_binary_partial",
    "C24_affine_refuted",
    "C24_periodic_binary_refuted",
    "C24_dim_tags_refuted",
    "C24_empty_refuted"
   ],
   "note": "Round trip of whole MSH 4.0 files through the same model for text and bytes: points, blocks (with Gmsh's node order), physical names, point and cell data, and in text files periodic links without transformation (C24_ascii_partial, C24_binary_partial). The claim about links is false in general: a link with a transformation makes a text file unreadable (C24_affine_refuted), any link in a binary file is misread because its count is written in 4 bytes and read in 8 (C24_periodic_binary_refuted). Point data gmsh:dim_tags, which reading MSH 4.1 produces, is refused (C24_dim_tags_refuted), and a block without cells is unreadable (C24_empty_refuted). Missing: files in which several entity blocks occur (only files the writer makes are covered by the round trip)."
  },
  {
   "property": "C25",
   "status": "partial",
   "theorems": [
    "C25_ascii_partial",
    "C25_binary_partial",
    "C25_corners_ascii",
    "C25_corners_binary",
    "C25_grouped_ascii",
    "C25_grouped_binary",
    "C25_point_data_refuted",
    "C25_entities_refuted",
    "C25_empty_refuted",
    "C25_shared_refuted"
   ],
   "note": "Round trip proved for ASCII (floats that print and parse) and for binary (8-byte doubles, little endian) over one generic reader/writer: points regrouped by entity in a stable way, cells, tags, bounding entities, names, data and links kept; corner coordinates of every cell equal; nothing moves if the points are listed by entity. Point data is not regrouped with the points (refuted); entities without points of their own, empty blocks, shared entities fail (refuted)."
  },
  {
   "property": "C26",
   "status": "proved",
   "theorems": [
    "C26_sparse_tags",
    "C26_cell_nodes",
    "C26_nodes"
   ],
   "note": "ASCII nodes and elements sections with arbitrary distinct positive tags and arbitrary elements."
  },
  {
   "property": "C27",
   "status": "proved",
   "theorems": [
    "C27_facets",
    "C27_order"
   ],
   "note": "Any total order of coordinate rows; also the order of the points. Rows that compare equal (0.0 and -0.0) are one point."
  },
  {
   "property": "C28",
   "status": "partial",
   "theorems": [
    "C28_binary_roundtrip",
    "C28_binary_detection",
    "C28_text_detection_partial",
    "C28_short_refuted",
    "C28_ascii_roundtrip"
   ],
   "note": "Binary and ASCII round trips for every mesh, exact detection for every byte string. Files of 80 to 83 bytes raise IndexError instead of being read as text (refuted for those)."
  },
  {
   "property": "C29",
   "status": "proved",
   "theorems": [
    "C29_roundtrip",
    "C29_faces",
    "C29_slashes",
    "C29_refused"
   ],
   "note": "Whole ASCII file. Vertex texture and normal references in faces are ignored by the reader (C29_slashes)."
  },
  {
   "property": "C30",
   "status": "proved",
   "theorems": [
    "C30_roundtrip"
   ],
   "note": "Whole ASCII file; 2D points gain a zero coordinate; only triangles are written."
  },
  {
   "property": "C31",
   "status": "partial",
   "theorems": [
    "C31_roundtrip_partial",
    "C31_faces",
    "C31_agree",
    "C31_empty_block_refuted",
    "C31_short_refuted"
   ],
   "note": "Face list and its property line (header and vertex part are C78). An empty block breaks the ASCII file, 16-bit indices the binary one (refuted); widths 1 (binary) and 255 (ASCII) depend on the numpy version and are excluded."
  },
  {
   "property": "C32",
   "status": "partial",
   "theorems": [
    "C32_types_partial",
    "C32_int16_refuted",
    "C32_tables_agree",
    "C32_uchar_refuted"
   ],
   "note": "Nine of the ten number types; int16 is refuted. The readers disagree on uchar, which the writer never emits for point data (refuted)."
  },
  {
   "property": "C33",
   "status": "partial",
   "theorems": [
    "C33_roundtrip",
    "C33_accepted_partial",
    "C33_outcome",
    "C33_truncated",
    "C33_refused",
    "C33_nonexistent_refuted"
   ],
   "note": "Exact outcome of every file. An index equal to the number of points is accepted instead of raising ReadError (refuted)."
  },
  {
   "property": "C34",
   "status": "partial",
   "theorems": [
    "C34_roundtrip_partial",
    "C34_accepted",
    "C34_exponent_refuted"
   ],
   "note": "Numbers printed without exponent (3 or 4 coordinates); numbers with an exponent make the file unreadable (refuted)."
  },
  {
   "property": "C35",
   "status": "partial",
   "theorems": [
    "C35_roundtrip_partial",
    "C35_arrays_partial",
    "C35_two_blocks_refuted",
    "C35_order_refuted",
    "C35_no_points_refuted",
    "C35_base"
   ],
   "note": "One block of tetrahedra in front of other blocks, at least one point. A second tetra block, a block before the tetrahedra or a mesh without points break the round trip (refuted). The loop of the reader that never ends when no tetra block was written is outside the model."
  },
  {
   "property": "C36",
   "status": "partial",
   "theorems": [
    "C36_file_types",
    "C36_file_types_default",
    "C36_binary_partial",
    "C36_ascii_partial",
    "C36_same_cells",
    "C36_repeated_type",
    "C36_integer_data_refuted"
   ],
   "note": "All eleven file types (ASCII with numpy before version 2). With integer cell data and surface cells the writer raises AttributeError (refuted), so labels other than the default never reach a file."
  },
  {
   "property": "C37",
   "status": "partial",
   "theorems": [
    "C37_read",
    "C37_write",
    "C37_roundtrip_partial",
    "C37_boundary_refuted",
    "C37_empty_refuted"
   ],
   "note": "Reading: every well-formed file, full statement. Writing: any boundary cell makes the writer raise TypeError, and a mesh without inner cells gives a file the reader refuses (both refuted); otherwise the exact file and the round trip."
  },
  {
   "property": "C38",
   "status": "partial",
   "theorems": [
    "C38_decode",
    "C38_encode_partial",
    "C38_roundtrip_partial",
    "C38_vertex_refuted",
    "C38_higher_order_refuted",
    "C38_empty_refuted"
   ],
   "note": "Reading: every stream of first-order cells. Writing and whole files (XML, Binary, HDF; points, cells, point and cell data): several blocks of first-order cells without vertices, or a single block of any type. Vertices, higher-order cells and several empty blocks in mixed topologies are refuted."
  },
  {
   "property": "C39",
   "status": "partial",
   "theorems": [
    "C39_history_partial",
    "C39_failed_call_refuted",
    "C39_directory_refuted",
    "C39_line_refuted"
   ],
   "note": "Every history of write_data calls after write_points_cells, in XML, Binary and HDF. A failed early call leaves an unreadable step, HDF data are lost when the file is not in the working directory, and lines in mixed topologies cannot be written (all refuted)."
  },
  {
   "property": "C40",
   "status": "partial",
   "theorems": [
    "C40_read_partial",
    "C40_roundtrip_partial",
    "C40_two_node_sections_refuted",
    "C40_comment_refuted",
    "C40_hybrid_refuted",
    "C40_untranslated_refuted"
   ],
   "note": "Ids are resolved for one NODE section with distinct ids and element sections broken over lines in any way; write then read gives the same points and blocks. Refuted: a second NODE section replaces the first, a comment among data lines ends the section, C3D4H, and untranslated names."
  },
  {
   "property": "C41",
   "status": "partial",
   "theorems": [
    "C41_roundtrip_partial",
    "C41_one_block",
    "C41_others",
    "C41_several_blocks_refuted",
    "C41_read",
    "C41_generate",
    "C41_element_elset_refuted"
   ],
   "note": "Point sets and one-block cell sets round trip, GENERATE expands exactly, set sections of any layout are read exactly. Refuted: of a set spanning several blocks only the last part survives, empty cell sets are lost, sets named by ELEMENT go to the wrong block."
  },
  {
   "property": "C42",
   "status": "partial",
   "theorems": [
    "C42_chain",
    "C42_roundtrip_partial",
    "C42_read",
    "C42_labels_refuted",
    "C42_line_refuted",
    "C42_empty_refuted"
   ],
   "note": "Chain of positions, reading of any file of any version and byte order, and round trip are proved. The round trip needs numbers that fit their fields, points in 2 or 3 dimensions and data that are not empty; refuted without these (C42_labels_refuted, C42_line_refuted, C42_empty_refuted). Blocks of unsupported types are dropped, as the statement says."
  },
  {
   "property": "C43",
   "status": "partial",
   "theorems": [
    "C43_roundtrip_partial",
    "C43_read",
    "C43_labels_refuted",
    "C43_dtype_refuted"
   ],
   "note": "Round trip and reading of any file with sections, comments and skipped sections in any order. Labels of points are read as floating point numbers: refuted for labels these cannot hold (C43_labels_refuted) and for points that are not float32 or float64 (C43_dtype_refuted)."
  },
  {
   "property": "C44",
   "status": "partial",
   "theorems": [
    "C44_nastran_partial",
    "C44_blocks_partial",
    "C44_orders",
    "C44_large_refuted",
    "C44_free_refuted",
    "C44_digits_refuted"
   ],
   "note": "Proved with cells in the format fixed-small and points in any format: same points, cells in order, references and identifiers (C44_nastran_partial, C44_blocks_partial); node orders are inverse for all types (C44_orders). Refuted otherwise: fixed-large cells are all lost in silence (C44_large_refuted), free cells cannot be written (C44_free_refuted), coordinates of fixed-small points are cut after eight characters (C44_digits_refuted)."
  },
  {
   "property": "C45",
   "status": "proved",
   "theorems": [
    "C45_orientation",
    "C45_text",
    "C45_binary",
    "C45_kind_text",
    "C45_kind_binary",
    "C45_same_nodes",
    "C45_mirror",
    "C45_zones_only"
   ],
   "note": "Orientation proved for exact arithmetic (a commutative ring with a sign): every zone listed in the text file has a non-negative triple product. Text and binary round trips give the corners of each cell, or the mirror image, whose faces are proved to be the reversed faces. Meshes with cells that are not three-dimensional are refused (AssertionError), proved for every such mesh."
  },
  {
   "property": "C46",
   "status": "partial",
   "theorems": [
    "C46_text",
    "C46_binary",
    "C46_one_block_partial",
    "C46_one_block_binary_partial",
    "C46_several_blocks_refuted",
    "C46_empty_set_refuted"
   ],
   "note": "The sets read back are characterised completely for any number of blocks; with one block they are the same and the caller's sets are unchanged. Refuted for several blocks (running numbers instead of indices into the block; the caller's arrays are shifted, a second write differs) and for sets without members (IndexError on reading)."
  },
  {
   "property": "C47",
   "status": "partial",
   "theorems": [
    "C47_file_order",
    "C47_same_nodes",
    "C47_roundtrip_partial",
    "C47_reordered_refuted"
   ],
   "note": "The mesh read back is characterised for every mesh (same points, same blocks, nodes of a cell in the file order); it is the same mesh when no block has one of the types triangle6, tetra10, quad9. Refuted for these three: every cell with distinct nodes changes its node order, since the reader does not undo the order of the writer."
  },
  {
   "property": "C48",
   "status": "partial",
   "theorems": [
    "C48_roundtrip_partial",
    "C48_blocks_refuted",
    "C48_one_point_refuted"
   ],
   "note": "Partial: proved (C48_roundtrip_partial) for meshes whose number of points is not one and that have no cell data besides the material or whose cells merge to one block. For the remaining meshes the claim is false, and this is proved: C48_blocks_refuted (TypeError on reading cell data of several blocks) and C48_one_point_refuted (IndexError)."
  },
  {
   "property": "C49",
   "status": "partial",
   "theorems": [
    "C49_zone_partial",
    "C49_surface_first_refuted",
    "C49_refused",
    "C49_roundtrip"
   ],
   "note": "C49_zone_partial: zone type, node counts and rows, for every accepted mesh except those of surfaces and solids whose first block is a surface, where the writer declares FEQUADRILATERAL for rows of eight nodes (C49_surface_first_refuted). C49_refused: which meshes are refused. C49_roundtrip: reading back."
  },
  {
   "property": "C50",
   "status": "partial",
   "theorems": [
    "C50_permutation",
    "C50_roundtrip_partial",
    "C50_cells",
    "C50_one_point_refuted"
   ],
   "note": "Proved: the node orders are inverse for all 14 types (C50_permutation); round trip of points, cells, index, region names and identifications for meshes with at least two points (C50_roundtrip_partial, C50_cells). Missing: a mesh with a single point, which the reader cannot read in one or two dimensions and reads as one flat row in three (C50_one_point_refuted)."
  },
  {
   "property": "C51",
   "status": "proved",
   "theorems": [
    "C51_names",
    "C51_roundtrip"
   ],
   "note": "Names (2D and 3D, 14 types) and whole-file round trip of points and cells, with any data sections present. Floats print without a capital E. Data are written but never read back; they are not part of the claim."
  },
  {
   "property": "C52",
   "status": "partial",
   "theorems": [
    "C52_sections",
    "C52_roundtrip",
    "C52_offset",
    "C52_gap",
    "C52_refused",
    "C52_single_refuted"
   ],
   "note": "Proved: layout of the written sections with contiguous ranges (C52_sections; the declaration counts cells from 1, the sections from 0); round trip in ASCII and binary (C52_roundtrip); files of other programs with any first index and several point sections (C52_offset), gaps refused (C52_gap); unsupported types and integers refused (C52_refused). Refuted for binary files of single precision points, which are written under the key for double precision and can never be read (C52_single_refuted)."
  },
  {
   "property": "C53",
   "status": "partial",
   "theorems": [
    "C53_covers",
    "C53_exactly_once_partial",
    "C53_empty_name",
    "C53_order_refuted",
    "C53_first_refuted"
   ],
   "note": "Coverage and matching stems for all names; exactly once if components come in the usual order. Refuted otherwise (C53_order_refuted, C53_first_refuted)."
  },
  {
   "property": "C54",
   "status": "partial",
   "theorems": [
    "C54_data_partial",
    "C54_cells",
    "C54_any_order",
    "C54_blocks_refuted",
    "C54_other_refuted",
    "C54_stale_refuted"
   ],
   "note": "C54_cells: without data, all cells of the written type come back in one block for any number of blocks. C54_data_partial: with data, if the last block is the only one of the written type (any listing order of the directory). Refuted otherwise: the data of all blocks are written to one file, so files cannot be read (C54_blocks_refuted, for every such mesh) or cells get data of other blocks (C54_other_refuted); data files of an earlier mesh are read with the new one (C54_stale_refuted). XML text is modelled as element trees; repr of numbers as in NumPy 1."
  },
  {
   "property": "C55",
   "status": "partial",
   "theorems": [
    "C55_hmf_partial",
    "C55_hmf_error",
    "C55_hmf_last_refuted",
    "C55_hmf_data_refuted",
    "C55_hmf_slash_refuted",
    "C55_cgns_partial",
    "C55_cgns_several",
    "C55_cgns_refuted",
    "C55_med_partial",
    "C55_med_twice",
    "C55_med_error",
    "C55_med_empty_refuted"
   ],
   "note": "HMF: C55_hmf_partial (one block per type, cell data only with one block); refuted otherwise: only the last block of a type is read back, cell data are cut at the lengths of the type names, names with a slash give unreadable files. CGNS: C55_cgns_partial (tetrahedra in one block), several blocks raise (C55_cgns_several); refuted: other cells are left out without an error. MED: C55_med_partial (one non-empty block per type), errors C55_med_twice and C55_med_error; refuted: an empty block gives an unreadable file. HDF5 files are modelled as trees of groups, attributes and datasets whose members are read in the order of their names."
  },
  {
   "property": "C56",
   "status": "partial",
   "theorems": [
    "C56_behaviour",
    "C56_check_partial",
    "C56_boundary_refuted",
    "C56_negative_refuted"
   ],
   "note": "Exact behaviour for every mesh (C56_behaviour); the property holds unless a cell refers to the index equal to the number of points (exception, C56_boundary_refuted) or to a negative one (C56_negative_refuted)."
  },
  {
   "property": "C57",
   "status": "partial",
   "theorems": [
    "C57_vtk42_twice",
    "C57_vtk51_twice",
    "C57_vtu_twice",
    "C57_avsucd_twice",
    "C57_ply_twice",
    "C57_vtk42_unchanged",
    "C57_vtk51_unchanged",
    "C57_vtu_unchanged",
    "C57_avsucd_unchanged",
    "C57_ply_unchanged",
    "C57_flac3d_partial",
    "C57_changed_refuted",
    "C57_ply_refuted",
    "C57_flac3d_refuted"
   ],
   "note": "Model/Effects.v models every writer that assigns to the mesh of the caller (VTK 4.2, VTK 5.1, VTU, AVS-UCD, PLY, FLAC3D), with the format itself as an arbitrary function of the prepared mesh. Proved: for all but FLAC3D, writing the same object twice gives the same outcome twice, and exactly which meshes stay unchanged. Refuted as stated: two-component data, sets, 2D points (AVS-UCD) and large int64 node numbers (PLY) are changed in the object; with FLAC3D and several blocks the second file is different. Missing: that the other writers do not assign to the mesh is by inspection of the source (their models are functions of the mesh)."
  },
  {
   "property": "C58",
   "status": "partial",
   "theorems": [
    "C58_inverted",
    "C58_injective",
    "C58_tables_partial",
    "C58_nodes",
    "C58_by_count",
    "C58_tecplot_refuted",
    "C58_tecplot_others",
    "C58_flac3d_refuted",
    "C58_unknown_refuted",
    "C58_vtk_nodes"
   ],
   "note": "Generic theorems about inverted tables and a sweep over the tables of all formats. Refuted for Tecplot (pyramid, wedge), FLAC3D (higher order types) and for Exodus names of types meshio does not know."
  },
  {
   "property": "C59",
   "status": "partial",
   "theorems": [
    "C59_constructible_refuted",
    "C59_constructible_partial",
    "C59_dimension"
   ],
   "note": "False for wedge15, pyramid13, hexahedron24 and hexahedron1331 (refuted); proved for all other types."
  },
  {
   "property": "C60",
   "status": "proved",
   "theorems": [
    "C60_physical_names"
   ],
   "note": "The mapping is restored; the order of names is not (the writer sorts)."
  },
  {
   "property": "C61",
   "status": "partial",
   "theorems": [
    "C61_roundtrip_partial",
    "C61_read_elements",
    "C61_components_refuted",
    "C61_stem_refuted",
    "C61_tetra4_refuted",
    "C61_missing_block_refuted"
   ],
   "note": "netCDF is a list of named variables. Round trip unless names of point data look like vector components (C61_components_refuted, C61_stem_refuted); element variables stored for all blocks are read exactly. Refuted: TET4/TETRA4 files cannot be read, variables missing for a block are misaligned. Cell data are not written at all."
  },
  {
   "property": "C62",
   "status": "partial",
   "theorems": [
    "C62_ansys_refuted",
    "C62_nastran_cut",
    "C62_nastran_refuted",
    "C62_ply_refuted",
    "C62_tecplot_refuted"
   ],
   "note": "Refuted for the Tecplot reader: every file cut inside the numbers or cells makes it loop for ever (C62_tecplot_refuted). Refuted for the ANSYS reader: a file cut after any number of point lines is never finished (C62_ansys_refuted). Nastran: no cut file is accepted (C62_nastran_cut), but one that ends after BEGIN BULK is never finished (C62_nastran_refuted). PLY: a file that ends within the header is never finished (C62_ply_refuted). Other readers are modelled by recursion over the lines, so no theorem is stated for them."
  },
  {
   "property": "C63",
   "status": "proved",
   "theorems": [
    "C63_h5m",
    "C63_twice",
    "C63_cell_data"
   ],
   "note": "Proved: with at most one block each of lines, triangles, tetrahedra and no cell data everything comes back (C63_h5m); otherwise the writer raises (C63_twice, C63_cell_data)."
  },
  {
   "property": "C64",
   "status": "partial",
   "theorems": [
    "C64_med_partial",
    "C64_gauss_refuted",
    "C64_long_refuted",
    "C64_names_refuted"
   ],
   "note": "C64_med_partial: tags, families, point data and cell data come back (blocks permuted by the format, scalars one-dimensional); component names in the order of the field names. Refuted: data at integration points are dropped silently, component names of 16 characters and more are glued together, component names are not kept when a mesh read from a file is written again. Not modelled: profiles, several time steps, family names outside ASCII."
  },
  {
   "property": "C65",
   "status": "partial",
   "theorems": [
    "C65_cells_partial",
    "C65_one_point_set_partial",
    "C65_points_refuted",
    "C65_space_refuted"
   ],
   "note": "Proved for cell sets with two or more sets, or one set whose name has no space, and for one point set. Refuted: the names of several point sets are joined with the whole key (a and b give aa-bb), and one cell set with a space in its name can get the name of two sets."
  },
  {
   "property": "C66",
   "status": "partial",
   "theorems": [
    "C66_periodic_refuted",
    "C66_grouped_ascii_partial",
    "C66_grouped_binary_partial"
   ],
   "note": "Refuted in general: link indices are written unchanged while the points are regrouped. Proved for meshes whose points are listed by entity."
  },
  {
   "property": "C67",
   "status": "partial",
   "theorems": [
    "C67_ascii_partial",
    "C67_binary_partial",
    "C67_polygons_refuted",
    "C67_binary_polygons_refuted",
    "C67_blank_name",
    "C67_item_sizes",
    "C67_bool_refuted",
    "C67_format_name_refuted"
   ],
   "note": "Whole 4.2 files, ASCII and binary, proved for meshes of cells with a fixed number of nodes, over one generic text/byte port (floats that print and parse, or codecs that decode what they encode). Missing: names with tabs or empty names, METADATA as a name, arrays of matrices or without entries (some cannot be read back), indices beyond 32 bits, Lagrange cells (refused by the reader). Refuted: all cell data is lost if one cell is a polygon; boolean arrays are written to ASCII files that cannot be read; the format name vtk51 writes version 4.2. Blank in a name: nothing written, proved for all meshes."
  },
  {
   "property": "C68",
   "status": "partial",
   "theorems": [
    "C68_ascii_partial",
    "C68_binary_partial",
    "C68_points_only_refuted"
   ],
   "note": "Whole 5.1 files, ASCII and binary, with polygons and Lagrange cells. Missing: as in C67, plus meshes with an empty block (IndexError of the writer, C16). Refuted: a mesh without cells is written, but the file cannot be read."
  },
  {
   "property": "C69",
   "status": "partial",
   "theorems": [
    "C69_ascii",
    "C69_rectilinear_ascii",
    "C69_curvilinear_ascii",
    "C69_binary",
    "C69_rectilinear_binary",
    "C69_curvilinear_binary",
    "C69_version_51_refuted",
    "C69_version_51_binary_refuted"
   ],
   "note": "Proved for STRUCTURED_POINTS, RECTILINEAR_GRID and STRUCTURED_GRID, ASCII and binary files of versions 2.0 to 4.2, all sizes with more than one point, with any FIELD data of points and cells. The axes of a rectilinear grid have one dtype. Refuted for version 5.1: TypeError."
  },
  {
   "property": "C70",
   "status": "partial",
   "theorems": [
    "C70_ascii",
    "C70_binary",
    "C70_compressed",
    "C70_no_cells_refuted",
    "C70_unknown_type"
   ],
   "note": "Whole VTU files as character strings, through a model of the XML writer and of the part of ElementTree that the reader uses: ASCII, binary and compressed files (any lossless compressor), every header type and byte order, polygons and Lagrange cells included. Missing: polyhedra in whole files (their arrays are in C21), names with markup (C72), empty blocks; compressed files need nonempty arrays (C19_empty). Refuted: a mesh without cells is written, but cannot be read (C70_no_cells_refuted). Other data types: nothing is written (C70_unknown_type)."
  },
  {
   "property": "C71",
   "status": "partial",
   "theorems": [
    "C71_last_piece_refuted"
   ],
   "note": "Refuted for all files: exactly the cells and cell data of the last piece are kept, with all points (C71_last_piece_refuted)."
  },
  {
   "property": "C72",
   "status": "partial",
   "theorems": [
    "C72_markup_refuted",
    "C72_renamed_refuted"
   ],
   "note": "Names without markup, quotes and control characters are kept (C70). Refuted for the others: less-than signs and ampersands make the file unreadable, a double quote or a tab changes the name."
  },
  {
   "property": "C73",
   "status": "partial",
   "theorems": [
    "C73_offsets_refuted",
    "C73_inline_partial"
   ],
   "note": "Refuted: an array whose new offset equals the old offset of a later one is renamed twice, and the two exchange their data (C73_offsets_refuted). If no new offset equals a later old one, the file reads like the same document with the arrays in the elements, for all documents and arrays, stored as they are or in compressed blocks (C73_inline_partial)."
  },
  {
   "property": "C74",
   "status": "partial",
   "theorems": [
    "C74_convert",
    "C74_sets_to_data",
    "C74_data_to_sets_refuted",
    "C74_ascii"
   ],
   "note": "Plain conversion and --sets-to-int-data proved for any readers, formats and options, with the options every writer accepts (C74_convert, C74_sets_to_data). Refuted for --int-data-to-sets: every mesh with point data or cell data makes the command fail, because the dictionary shrinks while it is iterated over. --ascii is accepted for exactly the formats with a text and a binary variant (C74_ascii)."
  },
  {
   "property": "C75",
   "status": "partial",
   "theorems": [
    "C75_same_format_partial",
    "C75_msh_refuted",
    "C75_commands"
   ],
   "note": "Proved for given formats and all names whose extension is not .msh (C75_same_format_partial, over the complete registry). Refuted for Gmsh files with the extension .msh: they are read as Gmsh files and overwritten with ANSYS files. C75_commands says which formats each command handles, with which arguments, and that the writers know them."
  },
  {
   "property": "C76",
   "status": "partial",
   "theorems": [
    "C76_early_failure",
    "C76_lost_refuted",
    "C76_ansys_left"
   ],
   "note": "Failures before the writer is called leave the file alone. Refuted in general: a Gmsh file with a type of cells unknown to ANSYS is emptied and then the command fails (C76_lost_refuted; the writer is modelled with what it leaves in the file)."
  },
  {
   "property": "C77",
   "status": "proved",
   "theorems": [
    "C77_extensions",
    "C77_svg"
   ],
   "note": "the documented table (Spec/Formats.v) is the list in README.md:25-53; .msh stands for two formats and is written as ANSYS"
  },
  {
   "property": "C78",
   "status": "partial",
   "theorems": [
    "C78_roundtrip",
    "C78_flat_refuted",
    "C78_data_refuted"
   ],
   "note": "Proved for all storable meshes (Spec/PlyFile.v), any exact printing and storing of numbers. The limits are theorems: points in the plane, 16 bit point data, names with other characters in text files and point data of a single point are written but cannot be read."
  },
  {
   "property": "C79",
   "status": "partial",
   "theorems": [
    "C79_together",
    "C79_apart_refuted",
    "C79_binary_refuted"
   ],
   "note": "Text files: proved if no two blocks have faces of the same size (C79_together), and refuted exactly otherwise (C79_apart_refuted: the file is rejected). Binary files with a number on faces are never read (C79_binary_refuted)."
  },
  {
   "property": "C80",
   "status": "partial",
   "theorems": [
    "C80_picture",
    "C80_not_flat",
    "C80_integers_refuted",
    "C80_empty"
   ],
   "note": "Proved for coordinates with exact arithmetic (rational numbers in place of doubles), any number format that gives equal numbers equal texts. Refuted for integer points with an image width (the default): TypeError, nothing is written. Cells of other types (also triangle6, polygon) are left out, as stated by drawn_cells."
  },
  {
   "property": "C81",
   "status": "partial",
   "theorems": [
    "C81_ascii",
    "C81_binary",
    "C81_ascii_51",
    "C81_binary_51",
    "C81_type_names_refuted",
    "C81_other_attributes",
    "C81_table_refuted",
    "C81_int_refuted"
   ],
   "note": "Proved for unstructured grids with any list of sections (C81_ascii, _binary, _ascii_51, _binary_51). Refuted: in version 5.1 the usual names of types (unsigned_char, long, ...) are a KeyError and int is read with eight bytes; a table of colours changes the number of entries that is expected afterwards."
  },
  {
   "property": "C82",
   "status": "partial",
   "theorems": [
    "C82_ascii",
    "C82_binary",
    "C82_vertices",
    "C82_groups_refuted",
    "C82_links_refuted",
    "C82_node_data_refuted",
    "C82_serendipity_refuted",
    "C82_data",
    "C82_data_by_tag",
    "C82_data_binary",
    "C82_binary_tags_refuted"
   ],
   "note": "Proved for all files without data sections (C82_ascii, _binary; C82_vertices states it for the coordinates of the vertices) and for text files with sections of node and element data (C82_data; C82_data_by_tag if the rows follow the order of the nodes), and for binary files if their rows have the tags 1, 2, ... (C82_data_binary; every file with other tags is a ReadError, C82_binary_tags_refuted). Refuted: a file in which some element blocks have a physical group and others have none is a ValueError; the nodes of periodic links are the tags less one and not positions of points; node data is assigned in the order of the file and not by tag; wedge15 and pyramid13 elements are a KeyError."
  },
  {
   "property": "C83",
   "status": "partial",
   "theorems": [
    "C83_element_data",
    "C83_element_data_refuted",
    "C83_ascii",
    "C83_cells",
    "C83_tags",
    "C83_links_refuted",
    "C83_node_data_refuted",
    "C83_dangling_refuted",
    "C83_serendipity_refuted"
   ],
   "note": "Proved for node data whose rows follow the order of the nodes (C83_ascii; C83_cells and C83_tags state what its specification means). Exact: a file in which some elements have a physical (or geometrical) tag and others have none is a ValueError. C83_element_data gives the exact outcome with ElementData sections. Refuted: element data are cut at 2, 4, ..., so that a file in which a block other than the last has not two cells is a ValueError (C83_element_data_refuted); nodes of periodic links are the tags less one and not positions of points; rows of node data are assigned in their order and not by tag; an element with a tag that no node has gets the point -1; wedge15 and pyramid13 elements are a KeyError."
  },
  {
   "property": "C84",
   "status": "partial",
   "theorems": [
    "C84_binary",
    "C84_groups",
    "C84_tags_refuted",
    "C84_counts_refuted",
    "C84_element_data",
    "C84_element_tags_refuted"
   ],
   "note": "C84_binary gives the exact outcome for every file: the mesh of C83 if the node tags are 1, 2, ... and elements of one type have the same number of tags. C84_element_data gives it for files with ElementData sections: the rows must have the tags 1, 2, ... and every block but the last must have two cells (C84_element_tags_refuted). Refuted for all other files, whose text versions are read: node tags with gaps or in another order (ReadError, C84_tags_refuted), elements of one type with different numbers of tags, as in partitioned meshes (ValueError, C84_counts_refuted)."
  },
  {
   "property": "C85",
   "status": "partial",
   "theorems": [
    "C85_ascii",
    "C85_binary",
    "C85_vertices",
    "C85_groups_refuted",
    "C85_links_refuted",
    "C85_serendipity_refuted",
    "C85_data",
    "C85_node_data_refuted",
    "C85_data_binary"
   ],
   "note": "Proved for all files without data sections and for text files with node and element data (C85_data); links without transformation in text files, no links in binary files (C85_ascii, _binary; C85_vertices states it for the coordinates of the vertices). Data sections of binary files if their rows have the tags 1, 2, ... (C85_data_binary). Refuted: node data is assigned in the order of the file and not by tag; a file in which some element blocks have a physical group and others have none is a ValueError; the nodes of periodic links are the tags less one and not positions of points; wedge15 and pyramid13 elements are a KeyError."
  },
  {
   "property": "C86",
   "status": "partial",
   "theorems": [
    "C86_indices_partial",
    "C86_cells_partial",
    "C86_nodes_apart_refuted"
   ],
   "note": "Points, cells and point sets: proved for all trees of files in which INCLUDE comes after the file's own mesh (C86_indices_partial; C86_cells_partial says it by coordinates). Missing, because the code does not do it: the cell sets of included files are lost (C86_cell_sets_refuted; exactly those of the outermost file remain), nodes and elements in different files are a ReadError (C86_nodes_apart_refuted, for all such files), NODE after INCLUDE drops the included points but not the cells, and an ELSET after INCLUDE lists the parts of the wrong blocks. Equal names of point sets: the last file counts. Paths are strings without pathlib's normalisation."
  },
  {
   "property": "C87",
   "status": "partial",
   "theorems": [
    "C87_comments",
    "C87_sections_partial",
    "C87_file22",
    "C87_file41",
    "C87_file40"
   ],
   "note": "Comments: proved for every text (C87_comments). Unknown sections: anywhere in the MSH 2.2, 4.0 and 4.1 text files of Gmsh (C87_file22, C87_file40, C87_file41), and directly after the header of MSH 2.2 text files, whatever follows (C87_sections_partial). Missing: binary files, and files of 2.2 that are not in the layout of Gmsh, except for sections after the header."
  }
 ]
}