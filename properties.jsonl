{"id": "C01", "title": "Mesh constructor accepts exactly the consistent meshes", "statement": "meshio.Mesh(points, cells, point_data, cell_data) succeeds if and only if every cell type is known, every point_data array has exactly len(points) entries and every cell_data entry has exactly one array per cell block whose length is the number of cells of that block; on success the blocks, points and data are exactly those given.", "quantifier": "all point lists, all lists of cell blocks, all dictionaries of point and cell data", "why_tests_cant": "The acceptance condition ranges over arbitrarily many blocks and arrays; a test can only sample particular mismatches.", "anchors": ["src/meshio/_mesh.py:Mesh.__init__", "src/meshio/_mesh.py:CellBlock.__init__"]}
{"id": "C02", "title": "cells_dict and get_cells_type lose, invent and reorder no cell", "statement": "For every mesh, Mesh.cells_dict has one entry per cell type occurring in the mesh (in order of first occurrence), and the entry of a type is the concatenation, in block order, of the cells of all blocks of that type; get_cells_type(t) returns the same array, and an empty array for a known type that does not occur.", "quantifier": "all meshes with any number and order of cell blocks", "why_tests_cant": "Needs to hold for every interleaving of block types.", "anchors": ["src/meshio/_mesh.py:Mesh.cells_dict", "src/meshio/_mesh.py:Mesh.get_cells_type"]}
{"id": "C03", "title": "cell_data_dict and get_cell_data stay aligned with cells_dict", "statement": "For every consistent mesh, every data name and every cell type, the i-th entry of cell_data_dict[name][t] (and of get_cell_data(name, t)) is the datum attached to the i-th cell of cells_dict[t].", "quantifier": "all consistent meshes, names, types and positions", "why_tests_cant": "Alignment must hold for every interleaving of block types and every position.", "anchors": ["src/meshio/_mesh.py:Mesh.cell_data_dict", "src/meshio/_mesh.py:Mesh.get_cell_data"]}
{"id": "C04", "title": "cell_sets_dict points at the cells that are members of the set", "statement": "For every mesh and cell set, cell_sets_dict[name][t] lists exactly positions i such that the i-th cell of cells_dict[t] is a member of the set, i.e. member m of a block becomes m plus the number of cells of the same type in earlier blocks.", "quantifier": "all meshes, all cell sets including sets with no entry (None) for some blocks", "why_tests_cant": "Offsets depend on all preceding blocks; only a proof over all block sequences covers the None case.", "anchors": ["src/meshio/_mesh.py:Mesh.cell_sets_dict"]}
{"id": "C05", "title": "Converting cell sets to cell data and back recovers the sets", "statement": "If the cell sets of a mesh partition its cells (every cell in exactly one set, no set empty) and have distinct names without '-', then cell_sets_to_data() followed by cell_data_to_sets(joined name) restores exactly the same named sets, leaving points, cells, and all other data unchanged; in general cell_sets_to_data stores for each cell the position of the last set containing it, or -1.", "quantifier": "all meshes and all families of cell sets", "why_tests_cant": "Partition families of any size over any number of blocks.", "anchors": ["src/meshio/_mesh.py:Mesh.cell_sets_to_data", "src/meshio/_mesh.py:Mesh.cell_data_to_sets"]}
{"id": "C06", "title": "Converting point sets to point data and back recovers the sets", "statement": "If the point sets of a mesh partition its points (each nonempty) and have distinct names without '-', point_sets_to_data() followed by point_data_to_sets(joined name) restores exactly the same named sets; in general the stored value of a point is the position of the last set containing it, or -1.", "quantifier": "all meshes and all families of point sets", "why_tests_cant": "Partition families of any size.", "anchors": ["src/meshio/_mesh.py:Mesh.point_sets_to_data", "src/meshio/_mesh.py:Mesh.point_data_to_sets"]}
{"id": "C07", "title": "cell_data_to_sets produces a disjoint cover of the cells", "statement": "For every integer cell data array, the sets created by cell_data_to_sets are one per distinct value, pairwise disjoint, together contain every cell, each cell lies in the set of its own value, and the data array is removed while every other data array is unchanged.", "quantifier": "all integer cell data over any blocks", "why_tests_cant": "Any number of tags and blocks; naming collisions with existing sets are input dependent.", "anchors": ["src/meshio/_mesh.py:Mesh.cell_data_to_sets"]}
{"id": "C08", "title": "join_strings is uniquely splittable", "statement": "For every nonempty list of strings for which join_strings returns (joined, char), joined.split(char) is the original list; it fails only if each of the five separators occurs in some string.", "quantifier": "all lists of strings", "why_tests_cant": "Strings are unbounded and may contain any of the separators.", "anchors": ["src/meshio/_common.py:join_strings", "src/meshio/_common.py:is_in_any"]}
{"id": "C09", "title": "replace_space is reversible", "statement": "If replace_space(s) returns (t, c), then t contains no space, has the length of s, and replacing every c in t by a space gives s back; hence two names replaced with the same character never collide.", "quantifier": "all strings", "why_tests_cant": "All strings containing any mix of the replacement characters.", "anchors": ["src/meshio/_common.py:replace_space"]}
{"id": "C10", "title": "Splitting raw cell data by block and concatenating are inverse", "statement": "For every list of nonempty or empty blocks (at least one), cell_data_from_raw(cells, raw_from_cell_data(d)) == d whenever d has one array per block of the block's length, and raw_from_cell_data(cell_data_from_raw(cells, r)) == r for every raw array r; the k-th piece has the length of block k whenever the raw array has one entry per cell.", "quantifier": "all block lists and data arrays", "why_tests_cant": "Block counts and lengths are unbounded; off-by-one in the split points only shows on some shapes.", "anchors": ["src/meshio/_common.py:cell_data_from_raw", "src/meshio/_common.py:raw_from_cell_data"]}
{"id": "C11", "title": "Format registry behaves like a map after any history", "statement": "After every sequence of register_format / deregister_format calls: reading with an explicit format uses the reader passed by the last registration of that name that is not followed by a deregistration; writing likewise; an extension yields the formats registered for it in registration order; after deregister_format(f) neither reading, writing nor extension lookup yields f.", "quantifier": "all finite histories of register/deregister calls", "why_tests_cant": "Depends on the whole history of registrations.", "anchors": ["src/meshio/_helpers.py:register_format", "src/meshio/_helpers.py:deregister_format"]}
{"id": "C12", "title": "read() returns the first candidate format that reads the file", "statement": "meshio.read(path) with no explicit format tries the formats deduced from the path in order, skips exactly those whose reader raises ReadError, returns the first successful result, propagates any other exception immediately, and terminates the program if all of them raise ReadError; with an explicit format only that reader is called.", "quantifier": "all candidate lists, registries and reader behaviours", "why_tests_cant": "The reader outcomes form an unbounded decision sequence.", "anchors": ["src/meshio/_helpers.py:read", "src/meshio/_helpers.py:_read_file", "src/meshio/_helpers.py:_read_buffer"]}
{"id": "C13", "title": "File format deduction from the path", "statement": "The list of formats deduced from a path is the concatenation, from the shortest to the longest dotted suffix of the file name, of the formats registered for the lower-cased suffix; it is case-insensitive; it raises ReadError exactly when no suffix is registered.", "quantifier": "all paths and registries", "why_tests_cant": "Names may have any number of suffixes in any letter case.", "anchors": ["src/meshio/_helpers.py:_filetypes_from_path"]}
{"id": "C14", "title": "write() never hands a malformed block to a format writer", "statement": "meshio.write calls the writer of the requested (or first deduced) format at most once, and only if every block of a type with a fixed node count has exactly that many columns; otherwise it raises WriteError and the writer is not called (nothing is written).", "quantifier": "all meshes, formats, registries", "why_tests_cant": "All block shapes and orders.", "anchors": ["src/meshio/_helpers.py:write"]}
{"id": "C15", "title": "VTK 4.2 cells survive a write/read round trip", "statement": "For every mesh whose blocks have VTK types with fixed node count, reading back the CELLS/CELL_TYPES sections written by the VTK 4.2 writer yields the same cells in the same order (adjacent blocks of equal type are merged, empty blocks disappear), and cell data split to the blocks that are read stays attached to the same cells.", "quantifier": "all lists of cell blocks of supported types, any sizes", "why_tests_cant": "The flat integer stream interleaves counts and indices; correctness is a property of all streams.", "anchors": ["src/meshio/vtk/_vtk_42.py:translate_cells", "src/meshio/vtk/_vtk_42.py:_write_cells", "src/meshio/_vtk_common.py:vtk_cells_from_data"]}
{"id": "C16", "title": "VTK 5.1 / VTU offset-connectivity encoding round trip", "statement": "For every mesh of supported nonempty blocks, the offsets/connectivity/types arrays written by the VTK 5.1 and VTU writers decode to the same cells in the same order (adjacent equal-type blocks merged, and for polygons/Lagrange types adjacent equal-size cells grouped).", "quantifier": "all lists of cell blocks", "why_tests_cant": "Offsets are cumulative over all previous cells.", "anchors": ["src/meshio/vtk/_vtk_51.py:_write_cells", "src/meshio/vtu/_vtu.py:write", "src/meshio/_vtk_common.py:vtk_cells_from_data"]}
{"id": "C17", "title": "VTK node-order conversion is lossless", "statement": "Converting the nodes of a cell from meshio to VTK order and back gives the original cell, for every cell type and every node list of the right length.", "quantifier": "all cell types and node lists", "why_tests_cant": "Every cell of every type.", "anchors": ["src/meshio/_vtk_common.py:meshio_to_vtk_order", "src/meshio/_vtk_common.py:vtk_to_meshio_order"]}
{"id": "C18", "title": "VTK structured grids expand to the right cells", "statement": "For every triple of positive dimensions with more than one grid point in total, the cells generated for a structured grid are exactly one per grid box, each listing exactly the corners of that box as valid point indices, and the generated points are in the x-fastest order of the coordinate arrays.", "quantifier": "all dimension triples", "why_tests_cant": "Dimensions are unbounded.", "anchors": ["src/meshio/vtk/_vtk_42.py:_generate_cells", "src/meshio/vtk/_vtk_42.py:_generate_points"]}
{"id": "C19", "title": "VTU compressed data arrays round trip", "statement": "For every nonempty array and every block size that is a whole number of items, the compressed representation written by the VTU writer (block count, block size, last block size, compressed sizes, compressed blocks) is decoded by the VTU reader to the same items, provided decompression inverts compression. The empty array is written, but reading it raises ValueError.", "quantifier": "all byte strings, all positive block sizes, all compressors", "why_tests_cant": "Boundary cases (empty data, exact multiples of the block size) and arbitrary sizes.", "anchors": ["src/meshio/vtu/_vtu.py:_chunk_it", "src/meshio/vtu/_vtu.py:write", "src/meshio/vtu/_vtu.py:VtuReader.read_compressed_binary"]}
{"id": "C20", "title": "VTU uncompressed data arrays and base64 sizes", "statement": "num_bytes_to_num_base64_chars(n) is exactly the length of the padded base64 encoding of n bytes, and the uncompressed binary data array (length header followed by the payload) written by the VTU writer decodes to the same bytes.", "quantifier": "all byte counts and byte strings", "why_tests_cant": "All residues modulo 3 at all sizes.", "anchors": ["src/meshio/vtu/_vtu.py:num_bytes_to_num_base64_chars", "src/meshio/vtu/_vtu.py:VtuReader.read_uncompressed_binary"]}
{"id": "C21", "title": "VTU polyhedral cells round trip", "statement": "For every mesh of polyhedral cells, the faces/faceoffsets arrays written by the VTU writer are decoded to the same cells (grouped by number of nodes), and cell data stays attached to its cell.", "quantifier": "all polyhedra with any number of faces and nodes per face", "why_tests_cant": "Doubly ragged nested data.", "anchors": ["src/meshio/vtu/_vtu.py:_polyhedron_cells_from_data", "src/meshio/vtu/_vtu.py:_polyhedron_face_cells"]}
{"id": "C22", "title": "Gmsh node-order conversion is lossless", "statement": "For every cell type, converting the node order from meshio to Gmsh and back (and from Gmsh to meshio and back) is the identity on every array of cells of that type.", "quantifier": "all cell types and all cells", "why_tests_cant": "Permutations of up to 27 nodes, all cells.", "anchors": ["src/meshio/gmsh/common.py:_gmsh_to_meshio_order", "src/meshio/gmsh/common.py:_meshio_to_gmsh_order"]}
{"id": "C23", "title": "MSH 2.2 write/read round trip", "statement": "For every mesh with supported cell types, writing MSH 2.2 and reading it back yields the same points and the same cells in the same order (adjacent blocks of equal type merged), with physical and geometrical tags attached to the same cells.", "quantifier": "all meshes", "why_tests_cant": "All block layouts and tag assignments.", "anchors": ["src/meshio/gmsh/_gmsh22.py:write", "src/meshio/gmsh/_gmsh22.py:read_buffer", "src/meshio/gmsh/_gmsh22.py:_read_cells"]}
{"id": "C24", "title": "MSH 4.0 write/read round trip", "statement": "For every mesh with supported cell types, writing MSH 4.0 and reading it back yields the same points and the same blocks; periodic entity links written are read back unchanged.", "quantifier": "all meshes and periodic lists, ASCII and binary", "why_tests_cant": "All block layouts.", "anchors": ["src/meshio/gmsh/_gmsh40.py:_write_elements", "src/meshio/gmsh/_gmsh40.py:_read_elements", "src/meshio/gmsh/_gmsh40.py:_write_periodic", "src/meshio/gmsh/_gmsh40.py:_read_periodic"]}
{"id": "C25", "title": "MSH 4.1 write/read preserves the geometry of every cell and point data", "statement": "For every mesh with entity (gmsh:dim_tags) information, writing MSH 4.1 and reading it back yields blocks whose cells have exactly the same vertex coordinates, the points being regrouped by entity, and point data stays attached to the same point.", "quantifier": "all meshes and all assignments of points to entities", "why_tests_cant": "The node permutation depends on the whole assignment.", "anchors": ["src/meshio/gmsh/_gmsh41.py:_write_nodes", "src/meshio/gmsh/_gmsh41.py:_read_nodes", "src/meshio/gmsh/_gmsh41.py:_read_elements", "src/meshio/gmsh/common.py:_read_data", "src/meshio/gmsh/common.py:_write_data"]}
{"id": "C26", "title": "Arbitrary node tags in MSH files are resolved to the right points", "statement": "Reading a MSH file whose nodes carry arbitrary distinct positive tags in any order yields cells whose i-th node is the point that carries the tag written in the file.", "quantifier": "all injective tag assignments and all element lists using them", "why_tests_cant": "Sparse and permuted numbering are unbounded.", "anchors": ["src/meshio/gmsh/_gmsh22.py:read_buffer", "src/meshio/gmsh/_gmsh40.py:_read_elements", "src/meshio/gmsh/_gmsh41.py:_read_elements"]}
{"id": "C27", "title": "STL reading deduplicates vertices without changing any triangle", "statement": "For every list of facets, the mesh read has pairwise distinct points, each of which occurs in some facet, and the k-th triangle has exactly the vertex coordinates of the k-th facet in the same order.", "quantifier": "all facet lists", "why_tests_cant": "All coincidence patterns between vertices.", "anchors": ["src/meshio/stl/_stl.py:data_from_facets"]}
{"id": "C28", "title": "Binary STL round trip and format detection", "statement": "For every triangle mesh, writing binary STL and reading it back yields the same triangles (as coordinates); every file of size 84+50*n with count n at byte 80 is read as binary whatever its header, and every shorter/longer file as ASCII.", "quantifier": "all triangle meshes, all headers", "why_tests_cant": "Detection depends on arbitrary file bytes.", "anchors": ["src/meshio/stl/_stl.py:read", "src/meshio/stl/_stl.py:_read_binary", "src/meshio/stl/_stl.py:_write_binary"]}
{"id": "C29", "title": "Wavefront OBJ round trip", "statement": "For every mesh of triangles and quads, writing OBJ and reading it back yields the same points and, for each face width, the same faces in order; texture coordinates and normals survive.", "quantifier": "all meshes", "why_tests_cant": "Any interleaving of face kinds.", "anchors": ["src/meshio/obj/_obj.py:read_buffer", "src/meshio/obj/_obj.py:write"]}
{"id": "C30", "title": "OFF round trip", "statement": "For every mesh, writing OFF and reading it back yields the same points and exactly the triangles of the mesh in order; other cells are dropped.", "quantifier": "all meshes", "why_tests_cant": "Any number of points, blocks.", "anchors": ["src/meshio/off/_off.py:read_buffer", "src/meshio/off/_off.py:write"]}
{"id": "C31", "title": "PLY face lists round trip", "statement": "For every list of face rows of at most 255 nodes, the ASCII and binary PLY readers decode the face list written by the PLY writer to the same faces in the same order, adjacent faces of equal width forming one block, and both variants agree.", "quantifier": "all ragged face lists", "why_tests_cant": "Ragged binary data: each row's position depends on all previous rows.", "anchors": ["src/meshio/ply/_ply.py:_read_binary_list", "src/meshio/ply/_ply.py:_read_ascii", "src/meshio/ply/_ply.py:write"]}
{"id": "C32", "title": "PLY property types that are written can be read", "statement": "Every property type name the PLY writer can emit for point data is understood by both PLY readers with the same width and signedness.", "quantifier": "all dtypes the writer accepts, both variants", "why_tests_cant": "Cross-table consistency between three tables over all entries.", "anchors": ["src/meshio/ply/_ply.py:ply_to_numpy_dtype", "src/meshio/ply/_ply.py:numpy_to_ply_dtype", "src/meshio/ply/_ply.py:_read_binary"]}
{"id": "C33", "title": "Neuroglancer binary round trip and index validation", "statement": "For every triangle mesh with float32 points, writing and reading neuroglancer precomputed data yields the same points and triangles; a file referring to a vertex that does not exist is rejected with ReadError.", "quantifier": "all meshes, all byte strings", "why_tests_cant": "All index values and byte strings.", "anchors": ["src/meshio/neuroglancer/_neuroglancer.py:read_buffer", "src/meshio/neuroglancer/_neuroglancer.py:write_buffer"]}
{"id": "C34", "title": "WKT TIN round trip", "statement": "For every triangle mesh, writing WKT and reading it back yields triangles with the same vertex coordinates in the same order and pairwise distinct points.", "quantifier": "all triangle meshes", "why_tests_cant": "All sharing patterns and all printable coordinates.", "anchors": ["src/meshio/wkt/_wkt.py:read_str", "src/meshio/wkt/_wkt.py:arr_to_str", "src/meshio/wkt/_wkt.py:write_str"]}
{"id": "C35", "title": "TetGen node/ele files round trip", "statement": "For every tetrahedral mesh, writing the .node/.ele pair and reading it back yields the same points, tetrahedra, attributes and markers.", "quantifier": "all meshes with one or more tetra blocks", "why_tests_cant": "Any number of blocks and attributes.", "anchors": ["src/meshio/tetgen/_tetgen.py:read", "src/meshio/tetgen/_tetgen.py:write"]}
{"id": "C36", "title": "UGRID round trip", "statement": "For every mesh with at most one block per UGRID type, writing and reading UGRID yields the same points and cells per type; the pyramid node reordering is lossless.", "quantifier": "all meshes", "why_tests_cant": "All sizes.", "anchors": ["src/meshio/ugrid/_ugrid.py:read_buffer", "src/meshio/ugrid/_ugrid.py:write"]}
{"id": "C37", "title": "SU2 element lists round trip", "statement": "For every mesh of the dimension's cell types, the NELEM section written is read back as the same cells grouped per type, and marker sections keep each boundary cell with its tag.", "quantifier": "all meshes", "why_tests_cant": "Interleavings of types.", "anchors": ["src/meshio/su2/_su2.py:read_buffer", "src/meshio/su2/_su2.py:write", "src/meshio/su2/_su2.py:_translate_cells"]}
{"id": "C38", "title": "XDMF mixed topology round trip", "statement": "For every list of cell blocks, the flat mixed topology array written by the XDMF writer is decoded by the reader to the same cells in the same order with adjacent equal-type blocks merged.", "quantifier": "all lists of blocks of all XDMF types", "why_tests_cant": "Self-delimiting stream: must be right for every stream.", "anchors": ["src/meshio/xdmf/main.py:XdmfWriter.write_cells", "src/meshio/xdmf/common.py:translate_mixed_cells"]}
{"id": "C39", "title": "XDMF time series return the data of the requested step", "statement": "For every sequence of write_data calls on a TimeSeriesWriter after write_points_cells, TimeSeriesReader.read_data(k) returns the time and the data passed to the k-th write_data call, and num_steps equals the number of calls.", "quantifier": "all histories of write_data calls", "why_tests_cant": "Any number of steps with any set of names.", "anchors": ["src/meshio/xdmf/time_series.py:TimeSeriesWriter", "src/meshio/xdmf/time_series.py:TimeSeriesReader"]}
{"id": "C40", "title": "Abaqus elements and nodes are resolved through their ids", "statement": "Reading an Abaqus file whose nodes have arbitrary distinct ids yields elements whose i-th node is the point with the id in the file, wherever the element's id list is broken over lines; writing and reading back yields the same points and blocks.", "quantifier": "all id assignments, all line breakings, all meshes", "why_tests_cant": "Unbounded id patterns and line layouts.", "anchors": ["src/meshio/abaqus/_abaqus.py:_read_cells", "src/meshio/abaqus/_abaqus.py:_read_nodes", "src/meshio/abaqus/_abaqus.py:write"]}
{"id": "C41", "title": "Abaqus node and element sets round trip", "statement": "Writing and reading an Abaqus file preserves the members of every point set and cell set; GENERATE ranges expand to start, start+step, ... up to and including the end.", "quantifier": "all sets over all block lists", "why_tests_cant": "Sets spanning several blocks, any size.", "anchors": ["src/meshio/abaqus/_abaqus.py:_read_set", "src/meshio/abaqus/_abaqus.py:read_buffer", "src/meshio/abaqus/_abaqus.py:write"]}
{"id": "C42", "title": "Medit binary files: keyword chain and round trip", "statement": "In every binary Medit file written, the position stored with each keyword is the byte offset of the next keyword, ending at the End keyword; reading it back yields the same vertices, cells (supported types, in block order) and reference labels.", "quantifier": "all meshes", "why_tests_cant": "Offsets accumulate over all sections.", "anchors": ["src/meshio/medit/_medit.py:write_binary_file", "src/meshio/medit/_medit.py:read_binary_buffer"]}
{"id": "C43", "title": "Medit ASCII round trip", "statement": "For every mesh of supported types, writing ASCII Medit and reading it back yields the same vertices, cells and reference labels.", "quantifier": "all meshes", "why_tests_cant": "Any blocks, any labels.", "anchors": ["src/meshio/medit/_medit.py:write_ascii_file", "src/meshio/medit/_medit.py:read_ascii_buffer"]}
{"id": "C44", "title": "Nastran bulk data: elements survive for every field format", "statement": "For every mesh of supported cells with ids that fit the field, writing with point_format/cell_format fixed-small, fixed-large or free and reading back yields the same points and cells, with continuation lines joined correctly and node orders converted losslessly.", "quantifier": "all meshes, all three formats", "why_tests_cant": "Continuation depends on node counts; all ids.", "anchors": ["src/meshio/nastran/_nastran.py:write", "src/meshio/nastran/_nastran.py:read_buffer", "src/meshio/nastran/_nastran.py:_chunk_line", "src/meshio/nastran/_nastran.py:_convert_to_vtk_ordering"]}
{"id": "C45", "title": "FLAC3D zones are written right-handed and keep their nodes", "statement": "Every zone written by the FLAC3D writer has a non-negative triple product of its first edges in FLAC3D ordering whatever the orientation of the input cell, and reading it back gives the original cell or its mirror image with the same node set.", "quantifier": "all point coordinates and all tetra, pyramid, wedge and hexahedron cells", "why_tests_cant": "All real geometries, both orientations.", "anchors": ["src/meshio/flac3d/_flac3d.py:_translate_zcells", "src/meshio/flac3d/_flac3d.py:meshio_to_flac3d_order", "src/meshio/flac3d/_flac3d.py:flac3d_to_meshio_order"]}
{"id": "C46", "title": "FLAC3D cell groups round trip and writing leaves the mesh alone", "statement": "Writing a mesh with cell sets to FLAC3D and reading it back gives sets with the same members of the same blocks, and writing does not change the caller's mesh.", "quantifier": "all meshes and sets", "why_tests_cant": "All set families over several blocks, repeated writes.", "anchors": ["src/meshio/flac3d/_flac3d.py:split_f_z", "src/meshio/flac3d/_flac3d.py:read_buffer"]}
{"id": "C47", "title": "PERMAS element connectivity round trip", "statement": "For every mesh of PERMAS types, writing and reading yields the same points and cells with the same node order.", "quantifier": "all meshes of supported types", "why_tests_cant": "All types and cells.", "anchors": ["src/meshio/permas/_permas.py:write", "src/meshio/permas/_permas.py:_read_cells"]}
{"id": "C48", "title": "AVS-UCD round trip", "statement": "For every mesh of supported cells, writing and reading AVS-UCD yields the same points, cells (adjacent equal types merged), material ids and node/cell data attached to the same items; node order conversion is lossless.", "quantifier": "all meshes", "why_tests_cant": "All layouts, arbitrary numbers of data columns.", "anchors": ["src/meshio/avsucd/_avsucd.py:write", "src/meshio/avsucd/_avsucd.py:_read_cells", "src/meshio/avsucd/_avsucd.py:_read_data"]}
{"id": "C49", "title": "Tecplot finite-element zones", "statement": "For every mesh the Tecplot writer accepts, the zone written declares the element type matching the node count of its connectivity rows and contains, in order, every cell of the highest dimension padded by repeating nodes, so that no cell gains or loses a node as a set.", "quantifier": "all meshes", "why_tests_cant": "All block mixtures.", "anchors": ["src/meshio/tecplot/_tecplot.py:write", "src/meshio/tecplot/_tecplot.py:_write_table"]}
{"id": "C50", "title": "Netgen round trip with node reordering", "statement": "For every cell type the Netgen node permutation is invertible, and writing and reading a mesh yields the same cells per block with their index data, blocks regrouped by dimension.", "quantifier": "all meshes", "why_tests_cant": "All block layouts.", "anchors": ["src/meshio/netgen/_netgen.py:_write_cells", "src/meshio/netgen/_netgen.py:_read_cells", "src/meshio/netgen/_netgen.py:netgen_to_meshio_pmap"]}
{"id": "C51", "title": "MDPA entity names identify the cell type", "statement": "Every entity name the MDPA writer emits for a cell type is recognised by the MDPA reader as that cell type, in two and in three dimensions.", "quantifier": "all supported cell types, both dimensions", "why_tests_cant": "Substring matching across the whole table.", "anchors": ["src/meshio/mdpa/_mdpa.py:_read_cells", "src/meshio/mdpa/_mdpa.py:_write_elements_and_conditions"]}
{"id": "C52", "title": "ANSYS Fluent node and cell sections round trip", "statement": "For every mesh, the sections written by the ANSYS writer have contiguous index ranges that cover all points/cells, and reading subtracts the first index so cells refer to the right points.", "quantifier": "all meshes", "why_tests_cant": "Running indices over all blocks; hexadecimal text of any size.", "anchors": ["src/meshio/ansys/_ansys.py:write", "src/meshio/ansys/_ansys.py:_read_points", "src/meshio/ansys/_ansys.py:_read_cells", "src/meshio/ansys/_ansys.py:read"]}
{"id": "C53", "title": "Exodus variable grouping covers every variable exactly once", "statement": "For every list of variable names in an Exodus file, grouping into scalars, vectors and tensors uses every variable exactly once and groups only variables with a common stem.", "quantifier": "all lists of names", "why_tests_cant": "All name patterns and orders.", "anchors": ["src/meshio/exodus/_exodus.py:categorize"]}
{"id": "C54", "title": "DOLFIN XML cell data round trip", "statement": "Writing a mesh with cell data to DOLFIN XML and reading it back yields the cells of the written type with each cell's own datum.", "quantifier": "all meshes with one or several blocks", "why_tests_cant": "Block layouts.", "anchors": ["src/meshio/dolfin/_dolfin.py:write", "src/meshio/dolfin/_dolfin.py:_write_mesh"]}
{"id": "C55", "title": "HDF-based formats keep every block", "statement": "Writing a mesh in the HMF, MED or CGNS format and reading it back yields every cell of the mesh, in blocks of the same type, with index base conversion and column-major flattening undone, or the writer raises an error.", "quantifier": "all meshes", "why_tests_cant": "Number of blocks and block types unbounded (10 or more blocks change the HDF key order).", "anchors": ["src/meshio/hmf/_hmf.py:write", "src/meshio/hmf/_hmf.py:read", "src/meshio/med/_med.py:write", "src/meshio/med/_med.py:read", "src/meshio/cgns/_cgns.py:write"]}
{"id": "C56", "title": "meshio info detects dangling cell indices", "statement": "The consistency check of the info command reports an inconsistency exactly when some cell refers to a point index that does not exist, and otherwise counts exactly the points used by no cell.", "quantifier": "all meshes", "why_tests_cant": "Boundary index equal to the number of points.", "anchors": ["src/meshio/_cli/_info.py:info"]}
{"id": "C57", "title": "Writers leave the caller's mesh unchanged", "statement": "meshio.write does not change the points, cells, data or sets of the mesh object it is given, so that writing the same mesh twice produces the same file twice.", "quantifier": "all meshes and formats", "why_tests_cant": "All meshes; repeated writes form a history.", "anchors": ["src/meshio/flac3d/_flac3d.py:split_f_z", "src/meshio/vtk/_vtk_42.py:write", "src/meshio/vtu/_vtu.py:write", "src/meshio/ply/_ply.py:write"]}
{"id": "C58", "title": "Format conversion tables are consistent", "statement": "For every format with a pair of type tables, translating a meshio cell type to the format and back yields the same meshio type, with the same number of nodes.", "quantifier": "all formats, all types they support", "why_tests_cant": "All table entries of all formats.", "anchors": ["src/meshio/abaqus/_abaqus.py:abaqus_to_meshio_type", "src/meshio/gmsh/common.py:_gmsh_to_meshio_type", "src/meshio/_vtk_common.py:vtk_to_meshio_type", "src/meshio/nastran/_nastran.py:nastran_to_meshio_type", "src/meshio/exodus/_exodus.py:exodus_to_meshio_type", "src/meshio/xdmf/common.py:xdmf_to_meshio_type"]}
{"id": "C59", "title": "Every cell type with a known node count can be put into a mesh", "statement": "For every cell type listed with a number of nodes per cell, a CellBlock/Mesh of that type can be constructed (so that every reader may return it and write() can check it).", "quantifier": "all cell types in the node-count table", "why_tests_cant": "Two independently maintained tables; all entries.", "anchors": ["src/meshio/_common.py:num_nodes_per_cell", "src/meshio/_mesh.py:topological_dimension", "src/meshio/_mesh.py:CellBlock.__init__"]}
{"id": "C60", "title": "Gmsh physical names survive writing and reading", "statement": "For every table of physical names (name, number, dimension) whose names contain no double quote, backslash or line break, writing the $PhysicalNames section and reading it back gives the same number and dimension for every name and no other names.", "quantifier": "all name tables", "why_tests_cant": "All names including empty ones and ones with blanks or quotes.", "anchors": ["src/meshio/gmsh/common.py:_write_physical_names", "src/meshio/gmsh/common.py:_read_physical_names"]}
{"id": "C61", "title": "Exodus files keep points, cells, point data and point sets", "statement": "For every mesh of supported cell types with named point data and point sets, writing an Exodus file and reading it back yields the same points, blocks, point data and sets; element variables of any file come back as the cell data of the blocks they were stored for.", "quantifier": "all meshes; all files with element variables", "why_tests_cant": "All names (numbered variables, names grouped by ending), all blocks and data shapes.", "anchors": ["src/meshio/exodus/_exodus.py:write", "src/meshio/exodus/_exodus.py:read", "src/meshio/exodus/_exodus.py:categorize"]}
{"id": "C62", "title": "Reading a truncated file ends", "statement": "For every file obtained by cutting a written file after any line, reading it ends: with a mesh or with an exception. No reader keeps asking for further lines once the end of the file has been reached.", "quantifier": "all meshes a writer accepts, all positions at which the file may be cut", "why_tests_cant": "A test can only cut a few files at a few positions, and non-termination is not observable by a test at all.", "anchors": ["src/meshio/tecplot/_tecplot.py:read_buffer", "src/meshio/tecplot/_tecplot.py:_read_zone_data", "src/meshio/tecplot/_tecplot.py:readline", "src/meshio/ansys/_ansys.py:_skip_close", "src/meshio/ansys/_ansys.py:_read_points"]}
{"id": "C63", "title": "H5M files keep points, point data, lines, triangles and tetrahedra", "statement": "Writing a mesh as H5M and reading it back yields the same points and point data (plus the point numbers, if asked for) and the same blocks of lines, triangles and tetrahedra; blocks of other types are left out. If there are two blocks of one of these types, or any cell data, the writer raises an error instead of storing part of them.", "quantifier": "all meshes, with and without global ids", "why_tests_cant": "All meshes, orders of blocks, names and shapes of data.", "anchors": ["src/meshio/h5m/_h5m.py:write", "src/meshio/h5m/_h5m.py:read"]}
{"id": "C64", "title": "MED files keep tags, families and fields", "statement": "Writing a mesh as MED and reading it back yields the tags of points and cells, the names of their families, the component names of the fields, and the point data and cell data (per cell, or per node of the cells) of every block, with scalars as one-dimensional arrays.", "quantifier": "all meshes with one block per type", "why_tests_cant": "All shapes of data, numbers of blocks and orders of field names; the blocks are reordered by the format.", "anchors": ["src/meshio/med/_med.py:write", "src/meshio/med/_med.py:_write_data", "src/meshio/med/_med.py:_write_families", "src/meshio/med/_med.py:read", "src/meshio/med/_med.py:_read_data", "src/meshio/med/_med.py:_read_families"]}
{"id": "C65", "title": "The names of sets survive the conversion to data in VTK and VTU files", "statement": "meshio.write to VTK 5.1 or VTU turns the point sets and the cell sets of a mesh into one integer array each, whose name consists of the names of the sets in order, joined with a character that is in none of these names, with one other unused character in place of spaces; so the names can be recovered from the file.", "quantifier": "all meshes with point or cell sets with any names", "why_tests_cant": "The join character depends on all names; tests use one or two plain names, and the ambiguous names are never tried.", "anchors": ["src/meshio/vtu/_vtu.py:write", "src/meshio/vtk/_vtk_51.py:write", "src/meshio/_common.py:join_strings", "src/meshio/_common.py:replace_space", "src/meshio/_mesh.py:Mesh.point_sets_to_data"]}
{"id": "C66", "title": "Periodic links of MSH 4.1 join the same points", "statement": "For every mesh with gmsh:periodic links, writing MSH 4.1 and reading it back yields links that join the same points (by coordinates) as before, although the writer regroups the points by entity.", "quantifier": "all meshes with periodic links and all assignments of points to entities", "why_tests_cant": "The writer reorders points; a test with points already grouped by entity cannot see that link indices are not renumbered.", "anchors": ["src/meshio/gmsh/_gmsh41.py:_write_periodic", "src/meshio/gmsh/_gmsh41.py:_write_nodes", "src/meshio/gmsh/_gmsh41.py:_read_periodic"]}
{"id": "C67", "title": "A mesh survives writing and reading a VTK file of version 4.2", "statement": "Writing a mesh to a legacy VTK file of version 4.2, as ASCII or binary, and reading it back gives its points (in three dimensions), the same cells in the same order with neighbouring cells of one type in one block, and every point and cell data array with its type. A data array whose name contains a blank is refused.", "quantifier": "all meshes, number formats, and both file modes", "why_tests_cant": "The file has headers with counts, padded arrays, byte orders, and sections found by looking at lines; a count that is wrong shows only for certain shapes and lengths.", "anchors": ["src/meshio/vtk/_vtk_42.py:write", "src/meshio/vtk/_vtk_42.py:read_buffer", "src/meshio/vtk/_vtk_42.py:_read_section", "src/meshio/vtk/_vtk_42.py:_write_field_data", "src/meshio/vtk/_main.py:read_buffer"]}
{"id": "C68", "title": "A mesh survives writing and reading a VTK file of version 5.1", "statement": "Writing a mesh to a legacy VTK file of version 5.1, as ASCII or binary, and reading it back gives its points (in three dimensions), the same cells including polygons and Lagrange cells, and every point and cell data array with its type.", "quantifier": "all meshes, number formats, and both file modes", "why_tests_cant": "Offsets, connectivity and types are three arrays that must fit for every sequence of blocks; tests try a few meshes.", "anchors": ["src/meshio/vtk/_vtk_51.py:write", "src/meshio/vtk/_vtk_51.py:read_buffer", "src/meshio/vtk/_vtk_51.py:_read_section", "src/meshio/vtk/_vtk_51.py:_write_cells"]}
{"id": "C69", "title": "Structured grids in VTK files are read as their points and boxes", "statement": "A legacy VTK file with a grid given by dimensions, origin and spacing, by coordinates along the axes, or by its points one by one, is read as the points of the grid, first axis fastest, one line, quadrilateral or hexahedron for every box, with the corners in the order of the cell type, and the data of the points and the cells.", "quantifier": "all dimensions, origins, spacings, coordinates, data arrays, file versions and modes", "why_tests_cant": "The numbers of points along the three axes enter every index; small grids do not show transposed axes.", "anchors": ["src/meshio/vtk/_vtk_42.py:_generate_cells", "src/meshio/vtk/_vtk_42.py:_generate_points", "src/meshio/vtk/_vtk_42.py:_check_mesh", "src/meshio/vtk/_vtk_51.py:_check_mesh"]}
{"id": "C70", "title": "A mesh survives writing and reading a VTU file", "statement": "Writing a mesh as VTU (ASCII, binary, or compressed, any header type and byte order) and reading the file gives the same points (in three dimensions), the same cells with neighbouring blocks of one type joined, and the same point and cell data.", "quantifier": "all meshes of the format's types, array sizes, modes, header types, byte orders, block sizes and lossless compressors", "why_tests_cant": "A file is points, three cell arrays and any number of data arrays, each with its own encoding; tests fix a few meshes.", "anchors": ["src/meshio/vtu/_vtu.py:write", "src/meshio/vtu/_vtu.py:VtuReader", "src/meshio/vtu/_vtu.py:read", "src/meshio/_cxml/etree.py:Element"]}
{"id": "C71", "title": "A VTU file with several pieces is read as the union of its pieces", "statement": "Reading a VTU file with several Piece elements gives the points, cells and data of all pieces.", "quantifier": "all files with one or more pieces", "why_tests_cant": "Parallel programs write any number of pieces with any contents.", "anchors": ["src/meshio/vtu/_vtu.py:_organize_cells", "src/meshio/vtu/_vtu.py:VtuReader"]}
{"id": "C72", "title": "Names of data survive in VTU files", "statement": "A data array keeps its name when a mesh is written as VTU and read again.", "quantifier": "all names (strings)", "why_tests_cant": "Names are arbitrary strings; a few letters do not show what markup, quotes and white space do.", "anchors": ["src/meshio/_cxml/etree.py:Element", "src/meshio/vtu/_vtu.py:write", "src/meshio/vtu/_vtu.py:VtuReader"]}
{"id": "C73", "title": "Raw appended data of VTU files is assigned to the right arrays", "statement": "Reading a VTU file whose arrays are in a raw appended section gives every array the bytes at its offset.", "quantifier": "all numbers, sizes and orders of arrays, header types and byte orders", "why_tests_cant": "The reader rewrites offsets in place while it searches for them; whether two offsets meet depends on the sizes of all arrays.", "anchors": ["src/meshio/vtu/_vtu.py:_parse_raw_binary", "src/meshio/vtu/_vtu.py:get_grid"]}
{"id": "C74", "title": "meshio convert writes the mesh it has read", "statement": "The command convert hands the mesh of the input file to the writer of the output format; --sets-to-int-data turns the sets into integer data and keeps everything else, --int-data-to-sets turns integer data into sets, --ascii and --float-format reach the writer.", "quantifier": "for every input mesh, every input and output name and format and every combination of options", "why_tests_cant": "tests run a few conversions; that the loop over the data fails for every mesh that has data is a statement about all of them", "anchors": ["src/meshio/_cli/_convert.py:convert", "src/meshio/_mesh.py:Mesh.point_data_to_sets", "src/meshio/_mesh.py:Mesh.cell_data_to_sets", "src/meshio/_helpers.py:write"]}
{"id": "C75", "title": "The in-place commands keep the format of the file", "statement": "meshio ascii, binary, compress and decompress rewrite a file in the format in which it was read.", "quantifier": "for every file name, every content and every behaviour of the readers", "why_tests_cant": "the candidates depend on the registry and on which readers refuse the file; the tests use one extension per format", "anchors": ["src/meshio/_cli/_ascii.py:ascii", "src/meshio/_cli/_binary.py:binary", "src/meshio/_cli/_compress.py:compress", "src/meshio/_cli/_decompress.py:decompress", "src/meshio/_helpers.py:_filetypes_from_path"]}
{"id": "C76", "title": "An in-place command that fails leaves the file as it was", "statement": "If meshio ascii, binary, compress or decompress raises an exception, the file still has its old content.", "quantifier": "for every file, mesh and point at which the command can fail", "why_tests_cant": "a failure can happen at any point of the writer; tests exercise successful runs", "anchors": ["src/meshio/_cli/_ascii.py:ascii", "src/meshio/_cli/_compress.py:compress", "src/meshio/ansys/_ansys.py:write", "src/meshio/_files.py:open_file"]}
{"id": "C77", "title": "Every documented extension selects the documented format", "statement": "A file whose name ends in one of the extensions listed in the README, in any mixture of capital and small letters and after any stem, is read with the readers of the documented format and written with its writer, whatever dots the stem contains; SVG files can be written but not read.", "quantifier": "all file names, all documented extensions, all readers", "why_tests_cant": "the names that end in an extension are infinitely many, and other suffixes in the stem take part in the lookup", "anchors": ["src/meshio/_helpers.py:_filetypes_from_path", "src/meshio/_helpers.py:register_format", "src/meshio/_helpers.py:read", "src/meshio/_helpers.py:write"]}
{"id": "C78", "title": "PLY files keep points, point data and faces", "statement": "A mesh with points in space whose point data has plain names is written to a PLY file, text or binary of either byte order, and read back with the same points, the same point data of one number per point, and the same faces in the same order.", "quantifier": "all meshes, names, number types and sizes; both file variants; both byte orders", "why_tests_cant": "the layout of the file depends on the number, types and names of the data arrays and on the sequence of face sizes; which meshes are written but cannot be read is a statement about all of them", "anchors": ["src/meshio/ply/_ply.py:write", "src/meshio/ply/_ply.py:read_buffer", "src/meshio/ply/_ply.py:_read_ascii", "src/meshio/ply/_ply.py:_read_binary"]}
{"id": "C79", "title": "Numbers on the faces of PLY files become cell data", "statement": "Reading a PLY file whose faces carry further properties gives each face its own values as cell data.", "quantifier": "all sequences of faces of any sizes, all numbers of properties, text and binary files", "why_tests_cant": "whether values and faces stay together depends on the order of face sizes in the whole file; the tests contain no file with such properties in which sizes alternate", "anchors": ["src/meshio/ply/_ply.py:_read_ascii", "src/meshio/ply/_ply.py:_read_binary", "src/meshio/_mesh.py:Mesh"]}
{"id": "C80", "title": "An SVG picture shows the mesh", "statement": "Writing a flat mesh as SVG gives one path for every line, triangle and quadrilateral, in the order of the mesh and through its nodes in their order; the picture is the mesh scaled by one positive factor and turned upside down; the view box is the smallest rectangle around all points and has the requested width. A mesh that is not flat is refused with WriteError.", "quantifier": "all meshes, image widths, styles and number formats", "why_tests_cant": "Coordinates and sizes are unbounded; whether every point lies in the view box depends on all of them.", "anchors": ["src/meshio/svg/_svg.py:write"]}
{"id": "C81", "title": "Data of points and cells in VTK files of other programs", "statement": "Scalars (one to four components), vectors, tensors, fields and blocks of metadata in any order and number, in sections for points and cells in any order, are read with their names, types, shapes and numbers, in text and binary files of versions 4.2 and 5.1. Attributes that meshio does not know are refused.", "quantifier": "all meshes, all lists of sections and attributes, all numbers and types, both versions, both modes", "why_tests_cant": "meshio itself writes only fields; the reader is a state machine whose state (active section, expected number of entries) depends on the whole history of sections", "anchors": ["src/meshio/vtk/_vtk_42.py:_read_section", "src/meshio/vtk/_vtk_42.py:_read_subsection", "src/meshio/vtk/_vtk_42.py:_read_scalar_field", "src/meshio/vtk/_vtk_42.py:_read_field", "src/meshio/vtk/_vtk_42.py:_read_fields", "src/meshio/vtk/_vtk_42.py:_skip_meta", "src/meshio/vtk/_vtk_51.py:_read_section", "src/meshio/vtk/_vtk_51.py:_read_subsection"]}
{"id": "C82", "title": "MSH 4.1 files written by Gmsh", "statement": "Every MSH 4.1 file in the layout of Gmsh, with any number of entities, entity blocks of nodes and of elements, node tags with gaps and in any order, physical groups, names and links, is read as the mesh it describes: the points in the order of the file with their entities, the cells on the points whose tags the elements name, in meshio's node order, the entity, first physical group and bounding entities of every block, and for every physical name the cells of the group.", "quantifier": "all files in the layout of Gmsh, text and binary", "why_tests_cant": "meshio writes only a small part of what Gmsh writes (consecutive tags, one entity per block, at most one physical group); tags, numbers of blocks and groups are unbounded.", "anchors": ["src/meshio/gmsh/_gmsh41.py:read_buffer", "src/meshio/gmsh/_gmsh41.py:_read_entities", "src/meshio/gmsh/_gmsh41.py:_read_nodes", "src/meshio/gmsh/_gmsh41.py:_read_elements", "src/meshio/gmsh/_gmsh41.py:_read_periodic", "src/meshio/gmsh/common.py:_read_physical_names"]}
{"id": "C83", "title": "MSH 2.2 text files written by Gmsh", "statement": "Every MSH 2.2 text file in the layout of Gmsh, with node tags in any order and with gaps, elements of all types in any order with any number of tags, physical names, periodic links and node data, is read as the mesh it describes: the points in the order of the file, the cells on the points whose tags the elements name, in meshio's node order, and for every cell the physical and geometrical tag of its element.", "quantifier": "all files in the layout of Gmsh", "why_tests_cant": "meshio itself writes consecutive tags, elements sorted into blocks and exactly two tags; how tags are spread over blocks depends on the whole sequence of element types.", "anchors": ["src/meshio/gmsh/_gmsh22.py:read_buffer", "src/meshio/gmsh/_gmsh22.py:_read_nodes", "src/meshio/gmsh/_gmsh22.py:_read_cells", "src/meshio/gmsh/_gmsh22.py:_read_cells_ascii", "src/meshio/gmsh/_gmsh22.py:_read_periodic", "src/meshio/gmsh/common.py:_read_data", "src/meshio/gmsh/common.py:_read_physical_names"]}
{"id": "C84", "title": "Binary MSH 2.2 files written by Gmsh", "statement": "Every binary MSH 2.2 file in the layout of Gmsh is read as the mesh it describes, the same as from its text version, however its elements are divided into groups.", "quantifier": "all files in the layout of Gmsh, all divisions of the elements into groups of one type and one number of tags, all stored numbers", "why_tests_cant": "meshio itself writes one group per block, consecutive node tags and the same number of tags for all elements; files of Gmsh have groups of one element and any tags.", "anchors": ["src/meshio/gmsh/_gmsh22.py:read_buffer", "src/meshio/gmsh/_gmsh22.py:_read_nodes", "src/meshio/gmsh/_gmsh22.py:_read_cells", "src/meshio/gmsh/_gmsh22.py:_read_cells_binary", "src/meshio/gmsh/_gmsh22.py:_read_periodic", "src/meshio/gmsh/common.py:_read_data"]}
{"id": "C85", "title": "MSH 4.0 files written by Gmsh", "statement": "Every MSH 4.0 file in the layout of Gmsh, with any number of entities, entity blocks of nodes and of elements, node tags with gaps and in any order, physical groups, names and links without transformation, is read as the mesh it describes: the points in the order of the file, the cells on the points whose tags the elements name, in meshio's node order, and the entity and first physical group of every cell.", "quantifier": "all files in the layout of Gmsh, text and binary", "why_tests_cant": "meshio writes one block of nodes with consecutive tags and no entities; what Gmsh writes has any number of blocks, tags and groups.", "anchors": ["src/meshio/gmsh/_gmsh40.py:read_buffer", "src/meshio/gmsh/_gmsh40.py:_read_entities", "src/meshio/gmsh/_gmsh40.py:_read_nodes", "src/meshio/gmsh/_gmsh40.py:_read_elements", "src/meshio/gmsh/_gmsh40.py:_read_periodic", "src/meshio/gmsh/common.py:_read_physical_names"]}
{"id": "C86", "title": "Abaqus files that include other files", "statement": "Reading an Abaqus file that includes other files, which may include others again, gives one mesh with the points, cells and point sets of all of them: the points in the order of inclusion, every cell on the points it has in its own file, every point set with the same points, and the cell sets.", "quantifier": "all trees of files of any depth and width, in any directories, each with any mesh of its own, and all lines of other sections between", "why_tests_cant": "the tests include one file at one level; the offsets depend on the number of points in all files before.", "anchors": ["src/meshio/abaqus/_abaqus.py:read", "src/meshio/abaqus/_abaqus.py:read_buffer", "src/meshio/abaqus/_abaqus.py:merge"]}
{"id": "C87", "title": "Comments and unknown sections in MSH files", "statement": "Comments in front of the header of an MSH file, and sections whose names meshio does not know, anywhere between the others, do not change what is read.", "quantifier": "all numbers of comments and unknown sections, all contents that hold no line that ends them, all files", "why_tests_cant": "a test fixes a few sections; what is skipped may hold any lines, also lines that open or close other sections.", "anchors": ["src/meshio/gmsh/main.py:read_buffer", "src/meshio/gmsh/common.py:_fast_forward_to_end_block", "src/meshio/gmsh/_gmsh22.py:read_buffer", "src/meshio/gmsh/_gmsh40.py:read_buffer", "src/meshio/gmsh/_gmsh41.py:read_buffer"]}
