-Q theories Verif
theories/Base.v
theories/F_Angles.v
theories/F_Atoms.v
theories/F_Axes.v
theories/F_AxesData.v
theories/F_AxesExcl.v
theories/F_AxesKinds.v
theories/F_AxesReal.v
theories/F_AxesTable.v
theories/F_Bravais.v
theories/F_Classify.v
theories/F_Conventional.v
theories/F_Crystals.v
theories/F_Distinct.v
theories/F_Examples.v
theories/F_Geometry.v
theories/F_Kpoints.v
theories/F_Lepage.v
theories/F_LepageEx.v
theories/F_Minima.v
theories/F_Mono.v
theories/F_MonoKinds.v
theories/F_Niggli.v
theories/F_NiggliCerts.v
theories/F_NiggliCheck.v
theories/F_NiggliExist.v
theories/F_NiggliQ.v
theories/F_NiggliRun.v
theories/F_NiggliUnique.v
theories/F_Numerical.v
theories/F_Order.v
theories/F_Poscar.v
theories/F_Primitive.v
theories/F_Spherical.v
theories/F_Strings.v
theories/F_SymTables.v
theories/F_Symmetry.v
theories/F_Voronoi.v
theories/F_Window.v
theories/F_Zone.v
theories/F_ZoneCells.v
theories/F_ZoneTables.v
theories/F_ZoneTables2.v
theories/M_Atoms.v
theories/M_Cell.v
theories/M_Conventional.v
theories/M_Dict.v
theories/M_Examples.v
theories/M_Float.v
theories/M_FloatAtoms.v
theories/M_FloatPath.v
theories/M_Geometry.v
theories/M_Kpoints.v
theories/M_KpointsHeap.v
theories/M_Lepage.v
theories/M_Logo.v
theories/M_Niggli.v
theories/M_Numerical.v
theories/M_Path.v
theories/M_Plot.v
theories/M_Poscar.v
theories/M_Positions.v
theories/M_Primitive.v
theories/M_ScExamples.v
theories/M_Spglib.v
theories/M_Strings.v
theories/M_Sugar.v
theories/M_Table.v
theories/M_Variation.v
theories/M_Voronoi.v
theories/P_Atoms.v
theories/P_Bravais.v
theories/P_BravaisMono.v
theories/P_Case.v
theories/P_Colors.v
theories/P_Conventional.v
theories/P_Description.v
theories/P_Distinct.v
theories/P_DistinctCases.v
theories/P_Drawing.v
theories/P_Elongated.v
theories/P_Errors.v
theories/P_Examples.v
theories/P_Feedback.v
theories/P_Float.v
theories/P_FloatAtoms.v
theories/P_FloatPath.v
theories/P_FloatPositions.v
theories/P_Geometry.v
theories/P_Helpers.v
theories/P_Kpoints.v
theories/P_KpointsHeap.v
theories/P_Lepage.v
theories/P_LepageCubic.v
theories/P_LepageExact.v
theories/P_LepageKind.v
theories/P_LepageLattice.v
theories/P_LepageMono.v
theories/P_Logo.v
theories/P_Minima.v
theories/P_Monoclinic.v
theories/P_Niggli.v
theories/P_NiggliLoop.v
theories/P_Numerals.v
theories/P_Numerical.v
theories/P_Order.v
theories/P_Orientation.v
theories/P_Path.v
theories/P_Plot.v
theories/P_Poscar.v
theories/P_PoscarFile.v
theories/P_Positions.v
theories/P_Primitive.v
theories/P_ScExamples.v
theories/P_SpglibData.v
theories/P_Sugar.v
theories/P_Symbol.v
theories/P_Symmetry.v
theories/P_SymmetryCases.v
theories/P_Table.v
theories/P_Units.v
theories/P_Variation.v
theories/P_Voronoi.v
theories/P_Window.v
theories/P_Zone.v
theories/P_ZoneCases.v
theories/P_ZonePath.v
theories/S_Crystal.v
theories/S_Niggli.v
theories/S_Poscar.v
theories/S_Symmetry.v
theories/S_Zone.v
theories/T_Atoms.v
theories/T_Examples.v
theories/T_Points.v
theories/T_Tables.v
