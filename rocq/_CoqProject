-Q theories Verif
theories/Base.v
theories/BaseFacts.v
theories/TopoModel.v
theories/TopoSpec.v
theories/TopoProofs.v
theories/TopoProofs2.v
theories/TopoProofs3.v
theories/TopoProofs4.v
theories/TopoProofs5.v
theories/PropertiesTopo.v
theories/NumBase.v
theories/TrModel.v
theories/FillFacts.v
theories/TrSpec.v
theories/TrProofs.v
theories/TrProofs2.v
theories/ElevProofs.v
theories/TrProofs3.v
theories/ElevProofs2.v
theories/CellsModel.v
theories/SplitSpec.v
theories/SplitProofs.v
theories/ElevProofs3.v
theories/SplitProofs2.v
theories/SplitProofs3.v
theories/SplitProofs4.v
theories/SplitProofs5.v
theories/SplitProofs6.v
theories/SplitProofs7.v
theories/PropertiesTr.v
theories/PropertiesSplit.v
theories/ShapeSpec.v
theories/ShapeProofs.v
theories/ShapeProofs2.v
theories/ShapeProofs3.v
theories/ShapeProofs4.v
theories/ShapeProofs5.v
theories/EvalModel.v
theories/EvalProofs.v
theories/PropertiesShape.v
theories/GridModel.v
theories/GridSpec.v
theories/GridProofs.v
theories/GridProofs2.v
theories/GridProofs3.v
theories/GridProofs4.v
theories/GridProofs5.v
theories/GridProofs6.v
theories/GridProofs7.v
theories/PropertiesGrid.v
theories/QuadModel.v
theories/QuadSpec.v
theories/QuadProofs.v
theories/QuadProofs2.v
theories/QuadProofs3.v
theories/QuadProofs4.v
theories/QuadProofs5.v
theories/QuadProofs6.v
theories/QuadProofs7.v
theories/QuadProofs8.v
theories/QuadProofs9.v
theories/PropertiesQuad.v
theories/TriModel.v
theories/TriSpec.v
theories/TriProofs.v
theories/TriProofs2.v
theories/TriProofs3.v
theories/TriProofs4.v
theories/TriProofs5.v
theories/TriProofs6.v
theories/PropertiesTri.v
theories/LocModel.v
theories/LocSpec.v
theories/LocProofs.v
theories/LocProofs2.v
theories/LocProofs3.v
theories/LocProofs4.v
theories/LocProofs5.v
theories/LocProofs6.v
theories/LocProofs7.v
theories/LocProofs8.v
theories/LocProofs9.v
theories/LocProofs10.v
theories/PropertiesLoc.v
theories/NodalModel.v
theories/NodalSpec.v
theories/NodalProofs.v
theories/NodalProofs2.v
theories/NodalProofs3.v
theories/NodalProofs4.v
theories/NodalProofs5.v
theories/NodalProofs6.v
theories/NodalProofs7.v
theories/NodalProofs8.v
theories/NodalProofs9.v
theories/PropertiesNodal.v
theories/SpaceModel.v
theories/SpaceSpec.v
theories/SpaceProofs.v
theories/SpaceProofs2.v
theories/SpaceProofs3.v
theories/SpaceProofs4.v
theories/SpaceProofs5.v
theories/SpaceProofs6.v
theories/SpaceProofs7.v
theories/PropertiesSpace.v
theories/ExtrudeModel.v
theories/ExtrudeSpec.v
theories/ExtrudeProofs.v
theories/ExtrudeProofs2.v
theories/ExtrudeProofs3.v
theories/ExtrudeProofs4.v
theories/ExtrudeProofs5.v
theories/ExtrudeProofs6.v
theories/PropertiesExtrude.v
theories/IndexModel.v
theories/IndexSpec.v
theories/IndexProofs.v
theories/IndexProofs2.v
theories/IndexProofs3.v
theories/IndexProofs4.v
theories/PropertiesIndex.v
theories/ColorModel.v
theories/ColorSpec.v
theories/ColorProofs.v
theories/TileModel.v
theories/TileSpec.v
theories/TileProofs.v
theories/TileProofs2.v
theories/TileProofs3.v
theories/TileProofs4.v
theories/PropertiesTile.v
theories/LineModel.v
theories/LineSpec.v
theories/LineProofs.v
theories/LineProofs2.v
theories/PropertiesLine.v
theories/RecipeModel.v
theories/RecipeSpec.v
theories/RecipeProofs.v
theories/RecipeProofs2.v
theories/RecipeProofs3.v
theories/RecipeProofs4.v
theories/RecipeProofs5.v
theories/RecipeProofs6.v
theories/RecipeProofs7.v
theories/RecipeProofs8.v
theories/RecipeProofs9.v
theories/PropertiesRecipe.v
theories/TableModel.v
theories/TableSpec.v
theories/TableProofs.v
theories/TableProofs2.v
theories/TableProofs3.v
theories/TableProofs4.v
theories/PropertiesTable.v
theories/FrameModel.v
theories/FrameSpec.v
theories/FrameProofs.v
theories/FrameProofs2.v
theories/FrameProofs3.v
theories/PropertiesFrame.v
theories/MeshModel.v
theories/MeshSpec.v
theories/MeshProofs.v
theories/MeshProofs2.v
theories/MeshProofs3.v
theories/MeshProofs4.v
theories/MeshProofs5.v
theories/MeshProofs6.v
theories/MeshProofs7.v
theories/MeshProofs8.v
theories/PropertiesMesh.v
theories/InpModel.v
theories/InpSpec.v
theories/InpProofs.v
theories/InpProofs2.v
theories/InpProofs3.v
theories/InpProofs4.v
theories/InpProofs5.v
theories/PropertiesInp.v
theories/QueryModel.v
theories/QuerySpec.v
theories/QueryProofs.v
theories/QueryProofs2.v
theories/QueryProofs3.v
theories/PropertiesQuery.v
theories/SurfaceModel.v
theories/SurfaceSpec.v
theories/SurfaceProofs.v
theories/SurfaceProofs2.v
theories/SurfaceProofs3.v
theories/PropertiesSurface.v
theories/NetModel.v
theories/NetSpec.v
theories/NetProofs.v
theories/PropertiesNet.v
theories/IncidenceModel.v
theories/IncidenceSpec.v
theories/IncidenceProofs.v
theories/PropertiesIncidence.v
theories/DiskModel.v
theories/DiskSpec.v
theories/DiskProofs.v
theories/DiskProofs2.v
theories/DiskProofs3.v
theories/DiskProofs4.v
theories/DiskProofs5.v
theories/DiskProofs6.v
theories/PropertiesDisk.v
theories/ExchangeModel.v
theories/ExchangeSpec.v
theories/ExchangeProofs.v
theories/ExchangeProofs2.v
theories/PropertiesExchange.v
theories/DisplayModel.v
theories/DisplaySpec.v
theories/DisplayProofs.v
theories/DisplayProofs2.v
theories/DisplayProofs3.v
theories/DisplayProofs4.v
theories/PropertiesDisplay.v
theories/BlockModel.v
theories/BlockSpec.v
theories/BlockProofs.v
theories/BlockProofs2.v
theories/BlockProofs3.v
theories/PropertiesBlock.v
theories/TurnModel.v
theories/TurnSpec.v
theories/TurnProofs.v
theories/PropertiesTurn.v
theories/LinkModel.v
theories/LinkSpec.v
theories/LinkProofs.v
theories/LinkProofs2.v
theories/PropertiesLink.v
theories/SectionModel.v
theories/SectionSpec.v
theories/SectionProofs.v
theories/SectionProofs2.v
theories/SectionProofs3.v
theories/SectionProofs4.v
theories/PropertiesSection.v
theories/ClassModel.v
theories/ClassSpec.v
theories/ClassProofs.v
theories/ClassProofs2.v
theories/PropertiesClass.v
theories/ProbeModel.v
theories/ProbeSpec.v
theories/ProbeProofs.v
theories/ProbeProofs2.v
theories/ProbeProofs3.v
theories/ProbeProofs4.v
theories/ProbeProofs5.v
theories/PropertiesProbe.v
theories/TriangModel.v
theories/TriangSpec.v
theories/TriangProofs.v
theories/TriangProofs2.v
theories/PropertiesTriang.v
theories/RestModel.v
theories/RestSpec.v
theories/RestProofs.v
theories/PropertiesRest.v
theories/FieldModel.v
theories/FieldSpec.v
theories/FieldProofs.v
theories/FieldProofs2.v
theories/FieldProofs3.v
theories/PropertiesField.v
theories/KindModel.v
theories/KindSpec.v
theories/KindProofs.v
theories/KindProofs2.v
theories/PropertiesKind.v
theories/TailModel.v
theories/TailSpec.v
theories/TailProofs.v
theories/PropertiesTail.v
theories/SplitModel2.v
theories/SplitSpec2.v
theories/SplitProofs8.v
theories/PropertiesCaller.v
