-Q theories Verif
theories/AggModel.v
theories/AggProof.v
theories/AggProps.v
theories/ArgGen.v
theories/ArgHonest.v
theories/ArgLabel.v
theories/ArgMath.v
theories/ArgModel.v
theories/ArgProps.v
theories/ArgRows.v
theories/ArgRunProps.v
theories/ArgRunToy.v
theories/ArgSound.v
theories/ArgStages.v
theories/ArgTop.v
theories/ArgToy.v
theories/AvxModel.v
theories/AvxProof.v
theories/AvxProps.v
theories/Base.v
theories/BinModel.v
theories/BinProof.v
theories/BinProps.v
theories/BlsTab.v
theories/BnChkA.v
theories/BnChkB.v
theories/BnChkC.v
theories/BnChkD.v
theories/BnModel.v
theories/BnProof.v
theories/BnTabA.v
theories/BnTabB.v
theories/BnTabC.v
theories/BnTabD.v
theories/BrProof.v
theories/BudgetProof.v
theories/CgenBn.v
theories/CgenModel.v
theories/CgenProof.v
theories/CgenProps.v
theories/CgenToy.v
theories/CircFft.v
theories/CircFri.v
theories/CircFriModel.v
theories/CircHash.v
theories/CircModel.v
theories/CircMore.v
theories/CircProof.v
theories/CircProps.v
theories/CircToy.v
theories/CodegenModel.v
theories/CodegenProof.v
theories/CodegenProps.v
theories/CompressorModel.v
theories/CompressorPil.v
theories/CompressorProps.v
theories/ConnectProof.v
theories/Cubic.v
theories/CustomProof.v
theories/DenRel.v
theories/EndProof.v
theories/ExecProof.v
theories/ExportModel.v
theories/ExportPlain.v
theories/ExportProof.v
theories/ExportProps.v
theories/ExportText.v
theories/ExportTop.v
theories/ExportTotal.v
theories/ExportToy.v
theories/F3gModel.v
theories/F3gProof.v
theories/F3gProps.v
theories/F5gModel.v
theories/F5gProof.v
theories/F5gProps.v
theories/FftProof.v
theories/FftTop.v
theories/FftpBase.v
theories/FftpMath.v
theories/FftpModel.v
theories/FftpProof.v
theories/FftpProps.v
theories/FftpTop.v
theories/FrField.v
theories/FriMath.v
theories/FriModel.v
theories/FriProof.v
theories/FriProps.v
theories/G16Model.v
theories/G16Proof.v
theories/G16Props.v
theories/GcheckModel.v
theories/GcheckProof.v
theories/GcheckProps.v
theories/GenToy.v
theories/GlAux.v
theories/GlModel.v
theories/GlProof.v
theories/GlProps.v
theories/GlSqrt.v
theories/Hash512Inst.v
theories/Hash512Model.v
theories/Hash512Proof.v
theories/Hash512Props.v
theories/HashModel.v
theories/HashProof.v
theories/HashProps.v
theories/HonestProps.v
theories/HonestTable.v
theories/ImModel.v
theories/ImProof.v
theories/ImProps.v
theories/InfoCols.v
theories/InfoLayout.v
theories/InfoModel.v
theories/InfoPlace.v
theories/InfoProps.v
theories/InfoRun.v
theories/InfoSound.v
theories/InfoTop.v
theories/InfoToy.v
theories/InterpModel.v
theories/InterpProof.v
theories/InterpProps.v
theories/JoinProof.v
theories/ListAux.v
theories/MapModel.v
theories/MapProof.v
theories/MapProps.v
theories/MerkleProof.v
theories/MixToy.v
theories/NGen.v
theories/NGenProps.v
theories/NStep.v
theories/NTop.v
theories/NToy.v
theories/NumTheory.v
theories/OnchEval.v
theories/OnchModel.v
theories/OnchProof.v
theories/OnchProps.v
theories/OnchToy.v
theories/OqueryModel.v
theories/OqueryProof.v
theories/OqueryProps.v
theories/OqueryToy.v
theories/ParModel.v
theories/ParProof.v
theories/ParProps.v
theories/PhashModel.v
theories/PhashProof.v
theories/PhashProps.v
theories/PilNumModel.v
theories/PilNumProof.v
theories/PilProof.v
theories/PlaceProof.v
theories/PlonkModel.v
theories/PlonkProof.v
theories/PlonkProps.v
theories/PolsModel.v
theories/PolsProof.v
theories/PolyModel.v
theories/PolyProof.v
theories/PolyProps.v
theories/PosAvx.v
theories/PosBig.v
theories/PosBls.v
theories/PosBn.v
theories/PosBnModel.v
theories/PosConst.v
theories/PosHom.v
theories/PosModel.v
theories/PosOpt.v
theories/PosOptProps.v
theories/PosProof.v
theories/PosProps.v
theories/PosRing.v
theories/PosTables.v
theories/PrimeCert.v
theories/ProofSer.v
theories/ProofSerMore.v
theories/ProverModel.v
theories/ProverProof.v
theories/ProverProps.v
theories/PubModel.v
theories/PubProof.v
theories/PubProps.v
theories/PubToy.v
theories/Quintic.v
theories/R1csProof.v
theories/Roots.v
theories/SerModel.v
theories/SerProof.v
theories/SerProps.v
theories/SetupProof.v
theories/SoundCheck.v
theories/SoundFri.v
theories/SoundLast.v
theories/SoundLastToy.v
theories/SoundProps.v
theories/SoundQuery.v
theories/SoundTop.v
theories/SoundToy.v
theories/StageModel.v
theories/StageProps.v
theories/StageToy.v
theories/StarkCheck.v
theories/StarkDone.v
theories/StarkEval.v
theories/StarkExtend.v
theories/StarkFri.v
theories/StarkGen.v
theories/StarkMath.v
theories/StarkModel.v
theories/StarkPlain.v
theories/StarkPoly.v
theories/StarkProps.v
theories/StarkQuot.v
theories/StarkRow.v
theories/StarkSrc.v
theories/StarkStages.v
theories/StarkStep4.v
theories/StarkStep5.v
theories/StarkTop.v
theories/StarkToy.v
theories/SynthModel.v
theories/SynthProof.v
theories/SynthProps.v
theories/TableProps.v
theories/ToyHash.v
theories/TranscriptBn.v
theories/TranscriptProof.v
theories/UnrollEval.v
theories/UnrollModel.v
theories/UnrollProof.v
theories/UnrollProps.v
theories/UnrollToy.v
theories/VerifierModel.v
theories/VerifierProof.v
theories/VerifierProps.v
theories/VqueryModel.v
theories/VqueryProof.v
theories/VqueryProps.v
theories/VqueryToy.v
theories/WtnsProof.v
theories/ZStage.v
theories/ZqField.v
