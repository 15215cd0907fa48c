-Q theories Verif
theories/Base/Res.v
theories/Model/Tau.v
theories/Model/IcoScalar.v
theories/Model/DodeScalar.v
theories/Spec/Value.v
theories/Proofs/Irrational.v
theories/Proofs/ResLemmas.v
theories/Proofs/ValueLemmas.v
theories/Proofs/ScalarLemmas.v
theories/Model/Arr.v
theories/Model/Vectors.v
theories/Model/IcoMath1.v
theories/Model/IcoSymmetry.v
theories/Spec/RVec.v
theories/Spec/Shape.v
theories/Proofs/RVecLemmas.v
theories/Proofs/VectorLemmas.v
theories/Proofs/MatLemmas.v
theories/Proofs/SymopLemmas.v
theories/Spec/Mean.v
theories/Proofs/MeanLemmas.v
theories/Spec/Geometry.v
theories/Spec/IcoSpec.v
theories/Proofs/IcoProj.v
theories/Proofs/MatDec.v
theories/Proofs/GroupLemmas.v
theories/Proofs/IcoGroup.v
theories/Model/Sign.v
theories/Model/IcoVolume.v
theories/Proofs/SignLemmas.v
theories/Proofs/GeomLemmas.v
theories/Proofs/IcoVolumeLemmas.v
theories/Proofs/VectorLemmas2.v
theories/Model/Machine.v
theories/Proofs/MachineLemmas.v
theories/Model/Unique.v
theories/Model/IcoDedup.v
theories/Spec/Sets.v
theories/Proofs/UniqueLemmas.v
theories/Proofs/DedupLemmas.v
theories/Model/Num.v
theories/Model/LinAlg.v
theories/Model/Lapack.v
theories/Model/IcoNumeric.v
theories/Spec/Space.v
theories/Spec/LinAlg.v
theories/Spec/Lapack.v
theories/Spec/Tetra.v
theories/Spec/Samples.v
theories/Spec/Surface.v
theories/Proofs/NumLemmas.v
theories/Proofs/CoplanarLemmas.v
theories/Model/IcoIntersect.v
theories/Model/IcoSurface.v
theories/Proofs/IntersectLemmas.v
theories/Proofs/ObjLemmas.v
theories/Proofs/SurfaceLemmas.v
theories/Proofs/MergeLemmas.v
theories/Model/DodeMath1.v
theories/Model/DodeNumeric.v
theories/Model/DodeSymmetry.v
theories/Model/DodeArea.v
theories/Spec/DodeSpec.v
theories/Proofs/DodeProj.v
theories/Proofs/DodeGroup.v
theories/Proofs/DodeAreaLemmas.v
theories/Model/DodeDedup.v
theories/Spec/Cosets.v
theories/Proofs/DodeDedupLemmas.v
theories/Proofs/CosetLemmas.v
theories/Proofs/SiteLemmas.v
theories/Model/Text.v
theories/Model/Xyz.v
theories/Model/Writers.v
theories/Spec/TextSpec.v
theories/Spec/VestaSpec.v
theories/Proofs/TextLemmas.v
theories/Proofs/XyzLemmas.v
theories/Proofs/VestaLemmas.v
theories/Spec/PodSpec.v
theories/Spec/PodText.v
theories/Spec/VestaText.v
theories/Spec/Region.v
theories/Spec/Selection.v
theories/Model/Pod.v
theories/Model/PodText.v
theories/Model/VestaText.v
theories/Model/Simplify.v
theories/Model/Absent.v
theories/Proofs/PodLemmas.v
theories/Proofs/PodTextLemmas.v
theories/Spec/Overlap.v
theories/Proofs/Polytope.v
theories/Proofs/OverlapLemmas.v
theories/Proofs/DodeOverlapLemmas.v
theories/Proofs/Caratheodory.v
theories/Model/DodeIntersect.v
theories/Model/Numeric2.v
theories/Model/DodeSurface.v
theories/Model/Asymmetric.v
theories/Model/Convex.v
theories/Model/Subtract.v
theories/Model/Sorting.v
theories/Model/MachineVec.v
theories/Model/MachineSym.v
theories/Model/MachineCross.v
theories/Model/MachineInter.v
theories/Model/MachineDodeInter.v
theories/Model/MachineDedup.v
theories/Model/MachineBorder.v
theories/Model/MachineOutline.v
theories/Model/MachineEdges.v
theories/Spec/SolidFloat.v
theories/Spec/Plane.v
theories/Spec/DodeSamples.v
theories/Spec/Outline.v
theories/Spec/Solid.v
theories/Spec/Convex.v
theories/Spec/Subtract.v
theories/Spec/Float.v
theories/Spec/Edges.v
theories/Spec/SortSpec.v
theories/Spec/PlaneFloat.v
theories/Spec/SpaceFloat.v
theories/Spec/Grid.v
theories/Spec/MachineInter.v
theories/Spec/MachineDodeInter.v
theories/Spec/Corner.v
theories/Spec/DecimalSpec.v
theories/Proofs/PlaneLemmas.v
theories/Proofs/Polygon.v
theories/Proofs/DodeIntersectLemmas.v
theories/Proofs/DodeObjLemmas.v
theories/Proofs/P_Arith.v
theories/Props/Arith.v
theories/Proofs/P_Vector.v
theories/Props/Vector.v
theories/Proofs/P_DodeArith.v
theories/Props/DodeArith.v
theories/Proofs/P_Projection.v
theories/Props/Projection.v
theories/Proofs/P_Symmetry.v
theories/Props/Symmetry.v
theories/Proofs/P_Volume.v
theories/Props/Volume.v
theories/Proofs/P_Machine.v
theories/Props/Machine.v
theories/Proofs/P_Dedup.v
theories/Props/Dedup.v
theories/Proofs/P_Numeric.v
theories/Props/Numeric.v
theories/Proofs/P_Intersect.v
theories/Props/Intersect.v
theories/Proofs/P_Surface.v
theories/Props/Surface.v
theories/Proofs/P_Dode.v
theories/Props/Dode.v
theories/Proofs/P_DodeVec.v
theories/Props/DodeVec.v
theories/Proofs/P_DodeDedup.v
theories/Props/DodeDedup.v
theories/Proofs/P_DodeSite.v
theories/Props/DodeSite.v
theories/Proofs/P_Xyz.v
theories/Props/Xyz.v
theories/Proofs/P_Absent.v
theories/Props/Absent.v
theories/Proofs/P_Pod.v
theories/Props/Pod.v
theories/Proofs/P_Simplify.v
theories/Props/Simplify.v
theories/Proofs/P_Overlap.v
theories/Props/Overlap.v
theories/Proofs/P_DodeIntersect.v
theories/Props/DodeIntersect.v
theories/Proofs/P_DodeOverlap.v
theories/Props/DodeOverlap.v
theories/Proofs/DodeSurfaceLemmas.v
theories/Proofs/Frontier.v
theories/Proofs/OutlineLemmas.v
theories/Proofs/Frontier3.v
theories/Proofs/SolidLemmas.v
theories/Proofs/ConvexSets.v
theories/Proofs/ConvexLemmas.v
theories/Proofs/ConvexMain.v
theories/Proofs/SubtractLemmas.v
theories/Proofs/FormatLemmas.v
theories/Proofs/RoundLemmas.v
theories/Proofs/PodNumLemmas.v
theories/Proofs/LinAlgLemmas.v
theories/Proofs/LapackLemmas.v
theories/Proofs/LogLemmas.v
theories/Proofs/DetLemmas.v
theories/Proofs/GetrfLemmas.v
theories/Proofs/CorrectRounding.v
theories/Proofs/FloatCalc.v
theories/Proofs/FloatGeom.v
theories/Proofs/FloatTests.v
theories/Proofs/FloatOverlap.v
theories/Proofs/FloatCoplanar.v
theories/Proofs/FloatBall.v
theories/Proofs/DodeFloatBall.v
theories/Proofs/PlaneFrontier.v
theories/Proofs/EdgeLemmas.v
theories/Proofs/BorderLemmas.v
theories/Proofs/Caratheodory3.v
theories/Proofs/SortLemmas.v
theories/Proofs/DodeFloat.v
theories/Proofs/DodeFloatGeom.v
theories/Proofs/DodeFloatTests.v
theories/Proofs/DodeFloatOverlap.v
theories/Proofs/P_Numeric2.v
theories/Props/Numeric2.v
theories/Proofs/P_Symop0.v
theories/Props/Symop0.v
theories/Proofs/P_DodeSurface.v
theories/Props/DodeSurface.v
theories/Proofs/P_Asymmetric.v
theories/Props/Asymmetric.v
theories/Proofs/P_Rounding.v
theories/Props/Rounding.v
theories/Proofs/P_Solid.v
theories/Props/Solid.v
theories/Proofs/P_Convex.v
theories/Props/Convex.v
theories/Proofs/P_Subtract.v
theories/Props/Subtract.v
theories/Proofs/P_Float.v
theories/Props/Float.v
theories/Proofs/P_Edges.v
theories/Props/Edges.v
theories/Proofs/P_Sorting.v
theories/Props/Sorting.v
theories/Proofs/GridArea.v
theories/Proofs/GridVolume.v
theories/Proofs/GridRing.v
theories/Proofs/GridCross.v
theories/Proofs/GridInter.v
theories/Proofs/GridDodeInter.v
theories/Proofs/GridSign.v
theories/Proofs/GridLemmas.v
theories/Proofs/MachineSymLemmas.v
theories/Proofs/P_DodeFloat.v
theories/Props/DodeFloat.v
theories/Proofs/P_MachineVec.v
theories/Props/MachineVec.v
theories/Proofs/P_MachineCross.v
theories/Props/MachineCross.v
theories/Proofs/P_DodeFloatBall.v
theories/Props/DodeFloatBall.v
theories/Proofs/P_FloatBall.v
theories/Props/FloatBall.v
theories/Proofs/P_FloatComplete.v
theories/Props/FloatComplete.v
theories/Proofs/P_LinAlg.v
theories/Props/LinAlg.v
theories/Proofs/VestaTextLemmas.v
theories/Proofs/VestaDraw.v
theories/Proofs/P_PodText.v
theories/Props/PodText.v
theories/Proofs/P_VestaText.v
theories/Props/VestaText.v
theories/Proofs/P_MachineInter.v
theories/Props/MachineInter.v
theories/Proofs/P_MachineDodeInter.v
theories/Props/MachineDodeInter.v
theories/Proofs/P_MachineDedup.v
theories/Props/MachineDedup.v
theories/Proofs/SolidFloat.v
theories/Proofs/DodeSolidFloat.v
theories/Proofs/SegFloat.v
theories/Proofs/FlatFloat.v
theories/Proofs/P_DodeSolidFloat.v
theories/Props/DodeSolidFloat.v
theories/Proofs/P_SolidFloat.v
theories/Props/SolidFloat.v
theories/Spec/EdgesFloat.v
theories/Proofs/CoplanarFloat.v
theories/Proofs/P_MachineOutline.v
theories/Props/MachineOutline.v
theories/Proofs/P_MachineFlat.v
theories/Props/MachineFlat.v
theories/Proofs/RingFloor.v
theories/Proofs/P_MachineEdges.v
theories/Props/MachineEdges.v
theories/Proofs/RingFloor3.v
theories/Proofs/P_SmallSolid.v
theories/Props/SmallSolid.v
theories/Proofs/P_SmallPatch.v
theories/Props/SmallPatch.v
theories/Proofs/P_Names.v
theories/Props/Names.v
theories/Proofs/P_SolidEdges.v
theories/Props/SolidEdges.v
theories/Proofs/P_PatchEdges.v
theories/Props/PatchEdges.v
