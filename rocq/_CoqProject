-Q theories Verif
theories/Lib/Base.v
theories/Lib/Facts.v
theories/Lib/Text.v
theories/Lib/TextFacts.v
theories/Model/Core.v
theories/Model/Helpers.v
theories/Spec/Core.v
theories/Spec/Helpers.v
theories/Proofs/Core.v
theories/Proofs/CoreSets.v
theories/Proofs/CoreMisc.v
theories/Proofs/Helpers.v
theories/Proofs/Cli.v
theories/Spec/Formats.v
theories/Proofs/Formats.v
theories/Props/Formats.v
theories/Props/Core.v
theories/Props/Helpers.v
theories/Props/Cli.v
theories/Lib/Runs.v
theories/Spec/Blocks.v
theories/Proofs/Blocks.v
theories/Model/Vtk.v
theories/Spec/Vtk.v
theories/Proofs/RunsBlocks.v
theories/Lib/Facts2.v
theories/Proofs/Vtk.v
theories/Proofs/Vtk51.v
theories/Proofs/Grid.v
theories/Props/Vtk.v
theories/Lib/Bytes.v
theories/Lib/BytesFacts.v
theories/Model/Vtu.v
theories/Spec/Vtu.v
theories/Proofs/Vtu.v
theories/Proofs/VtuPoly.v
theories/Props/Vtu.v
theories/Lib/Lines.v
theories/Lib/LinesFacts.v
theories/Model/Gmsh.v
theories/Model/Gmsh22.v
theories/Lib/Perm.v
theories/Lib/Unique.v
theories/Lib/File.v
theories/Spec/Gmsh.v
theories/Proofs/Gmsh.v
theories/Proofs/Gmsh22.v
theories/Spec/Gmsh22.v
theories/Model/Stl.v
theories/Spec/Surface.v
theories/Proofs/Stl.v
theories/Props/Stl.v
theories/Proofs/Gmsh22File.v
theories/Props/Gmsh.v
theories/Lib/Group.v
theories/Model/Obj.v
theories/Model/Off.v
theories/Proofs/Obj.v
theories/Proofs/Off.v
theories/Props/Surfaces.v
theories/Model/Ply.v
theories/Model/PlyFile.v
theories/Spec/PlyFile.v
theories/Proofs/PlyFile.v
theories/Props/PlyFile.v
theories/Proofs/Ply.v
theories/Props/Ply.v
theories/Model/Neuroglancer.v
theories/Proofs/Neuroglancer.v
theories/Model/Wkt.v
theories/Proofs/Wkt.v
theories/Props/Triangles.v
theories/Lib/Table.v
theories/Lib/Hex.v
theories/Model/Tetgen.v
theories/Spec/Volume.v
theories/Proofs/Tetgen.v
theories/Props/Volumes.v
theories/Model/Ugrid.v
theories/Proofs/Ugrid.v
theories/Proofs/UgridSpec.v
theories/Model/Su2.v
theories/Proofs/Su2.v
theories/Model/Xdmf.v
theories/Spec/Xdmf.v
theories/Proofs/XdmfMixed.v
theories/Proofs/Xdmf.v
theories/Proofs/XdmfFile.v
theories/Props/Xdmf.v
theories/Model/Abaqus.v
theories/Spec/Abaqus.v
theories/Proofs/AbaqusLines.v
theories/Proofs/Abaqus.v
theories/Proofs/AbaqusFile.v
theories/Props/Abaqus.v
theories/Model/Medit.v
theories/Model/Snoc.v
theories/Model/Mdpa.v
theories/Spec/Mdpa.v
theories/Proofs/Mdpa.v
theories/Model/Info.v
theories/Model/Cli.v
theories/Model/Exodus.v
theories/Spec/Medit.v
theories/Spec/Info.v
theories/Spec/Exodus.v
theories/Proofs/Medit.v
theories/Proofs/MeditAscii.v
theories/Proofs/Snoc.v
theories/Proofs/Info.v
theories/Proofs/Exodus.v
theories/Proofs/ExodusFile.v
theories/Props/Medit.v
theories/Props/Checks.v
theories/Model/Tables.v
theories/Spec/Tables.v
theories/Props/Tables.v
theories/Model/Flac3d.v
theories/Model/Permas.v
theories/Model/Avsucd.v
theories/Model/Tecplot.v
theories/Model/Netgen.v
theories/Model/Ansys.v
theories/Model/Dolfin.v
theories/Spec/Flac3d.v
theories/Spec/Permas.v
theories/Spec/Avsucd.v
theories/Spec/Tecplot.v
theories/Spec/Netgen.v
theories/Spec/Ansys.v
theories/Spec/Dolfin.v
theories/Proofs/Flac3d.v
theories/Proofs/Flac3dSets.v
theories/Proofs/Flac3dFile.v
theories/Proofs/Flac3dBinary.v
theories/Proofs/Flac3dGeometry.v
theories/Proofs/Permas.v
theories/Proofs/Avsucd.v
theories/Proofs/AvsucdFile.v
theories/Proofs/Tecplot.v
theories/Proofs/TecplotFile.v
theories/Proofs/Netgen.v
theories/Proofs/NetgenFile.v
theories/Proofs/Ansys.v
theories/Proofs/Dolfin.v
theories/Props/Flac3d.v
theories/Props/Permas.v
theories/Props/Avsucd.v
theories/Props/Tecplot.v
theories/Props/Netgen.v
theories/Props/Ansys.v
theories/Props/Dolfin.v
theories/Model/Numpy.v
theories/Model/Hdf5.v
theories/Model/Hdf.v
theories/Model/Med.v
theories/Proofs/Numpy.v
theories/Proofs/Hdf5.v
theories/Spec/Hdf.v
theories/Spec/Med.v
theories/Proofs/Hdf.v
theories/Proofs/Med.v
theories/Props/Hdf.v
theories/Props/Med.v
theories/Model/Nastran.v
theories/Spec/Nastran.v
theories/Proofs/Nastran.v
theories/Proofs/NastranFile.v
theories/Props/Nastran.v
theories/Model/Effects.v
theories/Spec/Effects.v
theories/Proofs/Effects.v
theories/Props/Effects.v
theories/Model/Port.v
theories/Model/Gmsh22Bin.v
theories/Model/Msh41.v
theories/Spec/Msh41.v
theories/Spec/GmshFile.v
theories/Spec/Msh40File.v
theories/Spec/Msh2File.v
theories/Proofs/Port.v
theories/Proofs/Gmsh22Bin.v
theories/Proofs/Msh41.v
theories/Proofs/Msh41File.v
theories/Proofs/GmshFile.v
theories/Proofs/Msh40File.v
theories/Proofs/Msh2File.v
theories/Props/Msh41.v
theories/Props/GmshFile.v
theories/Props/Msh40File.v
theories/Props/Msh2File.v
theories/Spec/Msh2Bin.v
theories/Proofs/Msh2Bin.v
theories/Props/Msh2Bin.v
theories/Props/Gmsh22Bin.v
theories/Model/Msh40.v
theories/Spec/Msh40.v
theories/Proofs/Msh40.v
theories/Props/Msh40.v
theories/Model/VtkFile.v
theories/Spec/VtkFile.v
theories/Proofs/VtkPort.v
theories/Proofs/VtkFile.v
theories/Proofs/VtkGrid.v
theories/Proofs/VtkAttr.v
theories/Props/VtkFile.v
theories/Props/VtkAttr.v
theories/Model/Cxml.v
theories/Spec/Cxml.v
theories/Proofs/Cxml.v
theories/Model/VtuFile.v
theories/Spec/VtuFile.v
theories/Proofs/VtuFile.v
theories/Proofs/VtuPieces.v
theories/Spec/VtuRaw.v
theories/Proofs/VtuRaw.v
theories/Props/VtuFile.v
theories/Props/VtuRaw.v
theories/Proofs/PlyFaces.v
theories/Model/Svg.v
theories/Spec/Svg.v
theories/Proofs/Svg.v
theories/Props/Svg.v
theories/Spec/AbaqusInclude.v
theories/Proofs/AbaqusInclude.v
theories/Props/AbaqusInclude.v
theories/Spec/Msh4Data.v
theories/Spec/Msh2Data.v
theories/Spec/GmshSkip.v
theories/Proofs/Msh4Data.v
theories/Proofs/Msh2Data.v
theories/Proofs/Msh2BinData.v
theories/Proofs/GmshSkip.v
theories/Proofs/GmshMixed.v
theories/Proofs/GmshMixed40.v
theories/Props/Msh4Data.v
theories/Props/Msh2Data.v
theories/Props/Msh2BinData.v
theories/Props/GmshSkip.v
