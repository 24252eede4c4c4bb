-Q theories Verif

theories/Cong.v
theories/FqModel.v
theories/FqSpec.v
theories/FqProofs.v
theories/Pocklington.v
theories/PolyModel.v
theories/PolyProofs.v
theories/InterpProofs.v
theories/PropsField.v
theories/NumeralSpec.v
theories/PropsPoly.v
theories/AvlModel.v
theories/AvlSpec.v
theories/AvlProofs.v
theories/PropsAvl.v
theories/SparseModel.v
theories/SparseSpec.v
theories/SparseProofs.v
theories/SparseProofs2.v
theories/PropsSparse.v
theories/SchedModel.v
theories/SchedProofs.v
theories/PropsSched.v
theories/FactorModel.v
theories/FactorSpec.v
theories/FactorProofs.v
theories/PropsFactor.v
theories/ExprModel.v
theories/ExprSpec.v
theories/ExprProofs.v
theories/ExprProofs2.v
theories/PropsExpr.v
theories/R1csModel.v
theories/R1csSpec.v
theories/R1csProofs.v
theories/SplitProofs.v
theories/PropsR1cs.v
theories/EndProofs.v
theories/PropsEnd.v
theories/WitnessModel.v
theories/WitnessSpec.v
theories/WitnessProofs.v
theories/PropsWitness.v
theories/SolveProofs.v
theories/SolveProofs2.v
theories/TwinProofs.v
theories/PropsSolve.v
theories/SnarkModel.v
theories/SnarkSpec.v
theories/SnarkProofs.v
theories/SnarkProofs2.v
theories/SnarkProofs3.v
theories/PropsSnark.v
theories/SparseSnarkSpec.v
theories/SparseSnarkProofs.v
theories/SparseSnarkProofs2.v
theories/PropsSparseSnark.v
theories/SparseSim.v
theories/SnarkSim.v
theories/Ext.v
theories/TowerModel.v
theories/TowerSpec.v
theories/TowerProofs.v
theories/FieldProofs.v
theories/FrobProofs.v
theories/FrobProofs2.v
theories/FinalProofs.v
theories/PropsTower.v
theories/CurveModel.v
theories/CurveSpec.v
theories/JacProofs.v
theories/AssocProofs.v
theories/CurveGroup.v
theories/CurveProofs.v
theories/OrderCheck.v
theories/OrderCert1.v
theories/OrderCert2.v
theories/OrderProofs.v
theories/LineProofs.v
theories/BilinProofs.v
theories/HomProofs.v
theories/FrobCert.v
theories/PairField.v
theories/PairAlg.v
theories/PointCount.v
theories/SerialProofs.v
theories/TwistCount.v
theories/PairModel.v
theories/MillerProofs.v
theories/MillerLoop.v
theories/PairProofs.v
theories/HexNum.v
theories/PolyCheck.v
theories/NdCheck.v
theories/NdCert1.v
theories/NdCert2.v
theories/NdProofs.v
theories/PropsCurve.v
theories/PropsPair.v
theories/BnGroups.v
theories/PropsBn.v
theories/PropsSparseBn.v
theories/LexerModel.v
theories/LexerSpec.v
theories/LexerProofs.v
theories/PropsLexer.v
theories/ParserModel.v
theories/ParserSpec.v
theories/ParserProofs.v
theories/PropsParser.v
theories/CircuitModel.v
theories/LangSpec.v
theories/LangHeap.v
theories/LangSym.v
theories/LangTree.v
theories/LangScope.v
theories/LangLater.v
theories/LangRun.v
theories/LangBuild.v
theories/LangField.v
theories/PropsLang.v
theories/PropsCircuit.v
theories/LangGood.v
theories/GoodSystem.v
theories/PropsProgram.v
theories/SolveRange.v
theories/SystemShape.v
theories/PropsChain.v
theories/PropsSparseChain.v
theories/PropsTwin.v
theories/SplitSolve.v
theories/PropsSplit.v
theories/PropsOdd.v
theories/LangEval.v
theories/PropsSudoku.v
theories/PropsUnique.v
theories/PropsKeys.v
theories/PropsExamples.v
theories/PrintModel.v
theories/PropsPrint.v
theories/RandProofs.v
theories/PropsRand.v
theories/SourceSpec.v
theories/SourceProofs.v
theories/WriteSpec.v
theories/WriteProofs.v
theories/PropsSource.v
theories/LangTotal.v
theories/LangEnds.v
theories/LangAccept.v
theories/OpsProofs.v
theories/PropsAccept.v
theories/PropsArray.v
theories/ImportSpec.v
theories/ImportProofs.v
theories/PropsImport.v
theories/PropsNumeral.v
theories/RepoTests.v
theories/PropsElse.v
theories/PropsArms.v
theories/PropsReturn.v
theories/PropsGrow.v
theories/PropsCode.v
theories/PropsIndex.v
theories/PropsBits.v
theories/PropsCoef.v
theories/PropsAfter.v
