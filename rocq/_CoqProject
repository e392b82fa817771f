-Q theories Verif
theories/Base.v
theories/StorageModel.v
theories/StorageSpec.v
theories/StorageProofs.v
theories/StorageProps.v
theories/MatrixModel.v
theories/MatrixSpec.v
theories/MatrixProofs.v
theories/MatrixProgProofs.v
theories/MatrixProps.v
theories/StokesModel.v
theories/StokesSpec.v
theories/StokesProofs.v
theories/StokesProofs2.v
theories/StokesRefine.v
theories/StokesProps.v
theories/CString.v
theories/Angles.v
theories/DoodsonModel.v
theories/DoodsonSpec.v
theories/DoodsonProofs.v
theories/DoodsonArgModel.v
theories/DoodsonArgSpec.v
theories/DoodsonArgProofs.v
theories/DoodsonProps.v
theories/Poly.v
theories/FromChars.v
theories/EopModel.v
theories/EopSpec.v
theories/EopProofs.v
theories/EopProofs2.v
theories/EopParseModel.v
theories/EopParseSpec.v
theories/EopParseProofs.v
theories/EopProps.v
theories/Aod1bModel.v
theories/Aod1bSpec.v
theories/Aod1bProofs.v
theories/Aod1bProps.v
theories/IcgemModel.v
theories/IcgemSpec.v
theories/IcgemProofs.v
theories/IcgemLoop.v
theories/IcgemHeader.v
theories/IcgemProps.v
theories/Float64.v
theories/GridModel.v
theories/GridSpec.v
theories/GridProofs.v
theories/GridProps.v
theories/AtlasModel.v
theories/AtlasSpec.v
theories/AtlasProofs.v
theories/AtlasProofs2.v
theories/AtlasProofs3.v
theories/AtlasProps.v
theories/TideModel.v
theories/TideSpec.v
theories/TideProofs.v
theories/TideProofs2.v
theories/TideProofs3.v
theories/TideProps.v
theories/PoleModel.v
theories/PoleSpec.v
theories/PoleProofs.v
theories/PoleProofs2.v
theories/PoleProofs3.v
theories/PoleProps.v
theories/SiteModel.v
theories/SiteSpec.v
theories/SiteProofs.v
theories/SiteProofs2.v
theories/SiteProps.v
theories/FcnModel.v
theories/FcnSpec.v
theories/FcnProofs.v
theories/FcnProofs2.v
theories/FcnProps.v
theories/AlfSpec.v
theories/AlfMath.v
theories/AlfModel.v
theories/AlfProofs.v
theories/AlfProps.v
theories/CunSpec.v
theories/CunMath.v
theories/CunMath2.v
theories/CunModel.v
theories/CunReady.v
theories/CunProofs.v
theories/CunProofs2.v
theories/CunProofs3.v
theories/CunProofs4.v
theories/CunProofs5.v
theories/CunProofs6.v
theories/CunProofs7.v
theories/CunProps.v
theories/Vec.v
theories/PmModel.v
theories/PmSpec.v
theories/PmProofs.v
theories/PmProps.v
theories/PlanetModel.v
theories/PlanetSpec.v
theories/PlanetProofs.v
theories/PlanetProps.v
theories/RotModel.v
theories/RotSpec.v
theories/RotProofs.v
theories/RotProps.v
theories/PiBound.v
theories/FundModel.v
theories/FundSpec.v
theories/FundProofs.v
theories/FundProps.v
theories/RelModel.v
theories/RelSpec.v
theories/RelProofs.v
theories/RelProps.v
theories/KahanModel.v
theories/KahanSpec.v
theories/KahanProofs.v
theories/KahanProps.v
theories/SolidModel.v
theories/SolidSpec.v
theories/SolidProofs.v
theories/SolidProofs2.v
theories/SolidProps.v
theories/SsdModel.v
theories/SsdSpec.v
theories/SsdProofs.v
theories/SsdProofs2.v
theories/SsdProofs3.v
theories/SsdProps.v
theories/EtvModel.v
theories/EtvSpec.v
theories/EtvProofs.v
theories/EtvProofs2.v
theories/EtvProps.v
theories/AodBlockModel.v
theories/AodBlockSpec.v
theories/AodBlockProofs.v
theories/AodBlockProofs2.v
theories/AodBlockProps.v
theories/AodHeadModel.v
theories/AodHeadSpec.v
theories/AodHeadProofs.v
theories/AodHeadProofs2.v
theories/AodHeadProps.v
theories/CipRow.v
theories/CipTabS.v
theories/CipTabX.v
theories/CipTabY.v
theories/CipTabXY.v
theories/CipModel.v
theories/CipSpec.v
theories/CipProofs.v
theories/CipProofs2.v
theories/CipProofs3.v
theories/CipProps.v
theories/ClockModel.v
theories/ClockSpec.v
theories/ClockProofs.v
theories/ClockProps.v
theories/FlModel.v
theories/FlProofs.v
theories/FlFloatModel.v
theories/FlFloatProofs.v
theories/FlFast.v
theories/FlCipModel.v
theories/FlCipProofs.v
theories/FlCipProofs2.v
theories/FlCip64Model.v
theories/FlCip64Proofs.v
theories/FlCipProps.v
theories/FlEraModel.v
theories/FlEraProofs.v
theories/FlEraProps.v
theories/FlEtvModel.v
theories/FlEtvProofs.v
theories/FlEtvProps.v
theories/AlfSum.v
theories/AlfStable.v
theories/AlfError.v
theories/AlfGrow.v
theories/FlAlfModel.v
theories/FlAlfProofs.v
theories/FlAlfProofs2.v
theories/FlAlf64Proofs.v
theories/FlAlfPole.v
theories/FlAlfProps.v
theories/IcgemAccept.v
theories/FlCunModel.v
theories/FlCunProofs.v
theories/FlCunProofs2.v
theories/FlCunProofs3.v
theories/FlCunProofs4.v
theories/FlCunProofs5.v
theories/FlCunProofs6.v
theories/FlCunProofs7.v
theories/FlCunProps.v
theories/FlGravModel.v
theories/FlGravProofs.v
theories/FlGravProofs2.v
theories/FlGravProofs3.v
theories/FlGravProofs4.v
theories/FlGravSpec.v
theories/FlGravProofs5.v
theories/FlGravProps.v
theories/FlEopModel.v
theories/FlEopSpec.v
theories/FlEopProofs.v
theories/FlEopProofs2.v
theories/FlEopProps.v
theories/FlVecModel.v
theories/FlVecSpec.v
theories/FlVecProofs.v
theories/FlVecProofs2.v
theories/FlVecProofs3.v
theories/FlVecProofs4.v
theories/FlVecProps.v
theories/CostgModel.v
theories/CostgSpec.v
theories/CostgProofs.v
theories/CostgProps.v
theories/CheckModel.v
theories/CheckSpec.v
theories/CheckProofs.v
theories/CheckProps.v
theories/FlRotModel.v
theories/FlRotSpec.v
theories/FlRotProofs.v
theories/FlRotProofs2.v
theories/FlRotProofs3.v
theories/FlRotProofs4.v
theories/FlRotProofs5.v
theories/FlRotProps.v
theories/FlRotEpochProps.v
theories/FlBzModel.v
theories/FlBzSpec.v
theories/FlBzProofs.v
theories/FlBzProofs2.v
theories/FlBzProps.v
theories/PyModel.v
theories/AodMergeModel.v
theories/AodMergeSpec.v
theories/PyProofs.v
theories/AodMergeProofs.v
theories/AodMergeProofs2.v
theories/AodMergeProps.v
theories/TestSuiteModel.v
theories/TestSuiteSpec.v
theories/TestSuiteProofs.v
theories/TestSuiteProps.v
theories/AodGetModel.v
theories/AodGetSpec.v
theories/AodGetProofs.v
theories/AodGetProps.v
theories/FlPoleModel.v
theories/FlPoleSpec.v
theories/FlPoleProofs.v
theories/FlPoleProps.v
theories/CipTabScript.v
theories/CipGenModel.v
theories/CipGenSpec.v
theories/CipGenProofs.v
theories/CipGenProps.v
theories/FortLibModel.v
theories/FortLibSpec.v
theories/FortLibProofs.v
theories/FortLibProps.v
theories/ExEopModel.v
theories/ExEopSpec.v
theories/ExEopProofs.v
theories/ExEopProps.v
theories/ExPoleModel.v
theories/ExPoleSpec.v
theories/ExPoleProofs.v
theories/ExPoleProps.v
theories/HdrModel.v
theories/HdrSpec.v
theories/HdrProofs.v
theories/HdrProps.v
theories/Sp3Model.v
theories/Sp3Spec.v
theories/Sp3Proofs.v
theories/Sp3Props.v
theories/KahanTest.v
theories/KahanTestProofs.v
theories/KahanTestProps.v
theories/RefCsModel.v
theories/RefCsSpec.v
theories/RefCsProofs.v
theories/RefCsProps.v
theories/EopPlotModel.v
theories/EopPlotSpec.v
theories/EopPlotProofs.v
theories/EopPlotProps.v
theories/CmdPltModel.v
theories/CmdPltSpec.v
theories/CmdPltProofs.v
theories/CmdPltProps.v
theories/EopShowModel.v
theories/EopShowSpec.v
theories/EopShowProofs.v
theories/EopShowProps.v
theories/QuatTestModel.v
theories/QuatTestProofs.v
theories/QuatTestProps.v
theories/RegTestModel.v
theories/RegTestSpec.v
theories/RegTestProofs.v
theories/RegTestProps.v
