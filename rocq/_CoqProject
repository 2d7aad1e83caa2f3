-Q theories Verif
theories/Util.v
theories/Common_Model.v
theories/Common_Spec.v
theories/Common_Proof.v
theories/Common_Props.v
theories/OneDim_Model.v
theories/OneDim_Spec.v
theories/OneDim_Proof.v
theories/OneDim_Order.v
theories/OneDim_Props.v
theories/Dff_Model.v
theories/Dff_Spec.v
theories/Dff_Proof.v
theories/Dff_Axis.v
theories/OneDimDff_Model.v
theories/OneDimDff_Spec.v
theories/OneDimDff_Proof.v
theories/Dff_Props.v
theories/Geom.v
theories/Rect_Model.v
theories/Dff_Pack.v
theories/RectDff_Model.v
theories/Rect_Spec.v
theories/RectDff_Proof.v
theories/RectClautiaux_Proof.v
theories/RectDffBound_Proof.v
theories/RectDff_Props.v
theories/Formatter_Model.v
theories/Formatter_Spec.v
theories/Formatter_Proof.v
theories/FormatterDet_Proof.v
theories/Formatter_Props.v
theories/OneDimBuilder_Model.v
theories/OneDimBuilder_Spec.v
theories/OneDimBuilder_Proof.v
theories/OneDimSub_Proof.v
theories/OneDimBuilder_Props.v
theories/OneDimBounds_Model.v
theories/OneDimBounds_Spec.v
theories/OneDimBounds_Proof.v
theories/OneDimDp_Proof.v
theories/OneDimBounds_Props.v
theories/Csv_Model.v
theories/Csv_Spec.v
theories/Csv_Proof.v
theories/OneDimCert_Model.v
theories/OneDimCert_Spec.v
theories/OneDimCert_Proof.v
theories/OneDimCert_Props.v
theories/RectSol_Model.v
theories/RectSol_Spec.v
theories/RectSol_Proof.v
theories/RectAxle_Proof.v
theories/RectSol_Props.v
theories/RectCert_Model.v
theories/RectCert_Spec.v
theories/RectCert_Proof.v
theories/RectCert_Props.v
theories/RectBuilder_Model.v
theories/RectBuilder_Spec.v
theories/RectBuilder_Proof.v
theories/RectBuilder_Props.v
theories/RectFlip_Model.v
theories/RectFlip_Spec.v
theories/RectFlip_Proof.v
theories/RectFlip_Props.v
theories/Block_Model.v
theories/Block_Proof.v
theories/RectBlock_Model.v
theories/RectBlock_Spec.v
theories/RectBlock_Proof.v
theories/RectBlock_Props.v
theories/Space_Model.v
theories/Space_Spec.v
theories/Space_Proof.v
theories/SpaceNode_Proof.v
theories/RectSpaces_Model.v
theories/RectSpaces_Spec.v
theories/RectSpaces_Proof.v
theories/Normal_Proof.v
theories/RectNormal_Proof.v
theories/RectSpaces_Props.v
theories/Box_Model.v
theories/Box_Spec.v
theories/BoxSol_Model.v
theories/BoxSol_Spec.v
theories/BoxSol_Proof.v
theories/BoxSol_Props.v
theories/BoxBlock_Model.v
theories/BoxBlock_Spec.v
theories/BoxBlock_Proof.v
theories/BoxBlock_Props.v
theories/BoxBuilder_Model.v
theories/BoxBuilder_Spec.v
theories/BoxBuilder_Proof.v
theories/BoxBuilder_Props.v
theories/BoxFlip_Model.v
theories/BoxFlip_Spec.v
theories/BoxFlip_Proof.v
theories/BoxFlip_Props.v
theories/BoxSpaces_Model.v
theories/BoxSpaces_Spec.v
theories/BoxSpaces_Proof.v
theories/BoxNormal_Proof.v
theories/BoxSpaces_Props.v
theories/BoxDff_Model.v
theories/BoxDff_Proof.v
theories/BoxDff_Props.v
theories/Guil_Model.v
theories/Guil_Spec.v
theories/Guil_Proof.v
theories/GuilPlan_Proof.v
theories/Guil_Props.v
theories/GuilSol_Model.v
theories/GuilSol_Spec.v
theories/GuilSol_Proof.v
theories/GuilSolCore_Proof.v
theories/GuilWaste_Proof.v
theories/GuilSol_Props.v
theories/GuilAppend_Spec.v
theories/GuilAppend_Proof.v
theories/GuilAppend_Props.v
theories/ColGen_Model.v
theories/ColGen_Spec.v
theories/ColGenCap_Proof.v
theories/ColGenCut_Proof.v
theories/ColGenSep_Proof.v
theories/ColGenPrice_Proof.v
theories/ColGen_Props.v
theories/Svc_Model.v
theories/Svc_Spec.v
theories/Svc_Proof.v
theories/SvcLoop_Proof.v
theories/SvcHonest_Proof.v
theories/Svc_Props.v
theories/Dicho_Model.v
theories/Dicho_Spec.v
theories/Dicho_Proof.v
theories/DichoLoop_Proof.v
theories/Dicho_Props.v
theories/Scale_Model.v
theories/Scale_Spec.v
theories/Scale_Proof.v
theories/Scale_Props.v
theories/Tree1D_Model.v
theories/Tree1D_Spec.v
theories/Tree1D_Proof.v
theories/Tree1DNode_Proof.v
theories/Tree1DBound_Proof.v
theories/Tree1D_Props.v
theories/Reduc_Model.v
theories/Reduc_Spec.v
theories/Reduc_Proof.v
theories/ReducInv_Proof.v
theories/ReducGroup_Proof.v
theories/ReducDed_Proof.v
theories/ReducBoth_Proof.v
theories/ReducOpt_Proof.v
theories/ReducLoop_Proof.v
theories/ReducFinal_Proof.v
theories/Reduc_Props.v
theories/ColGenFix_Proof.v
theories/RectTree_Model.v
theories/RectTree_Spec.v
theories/RectSky_Proof.v
theories/RectTree_Proof.v
theories/RectTreeRes_Proof.v
theories/RectTreeNode_Proof.v
theories/RectTreeBound_Proof.v
theories/RectTree_Props.v
theories/Bar_Model.v
theories/Bar_Spec.v
theories/Bar_Proof.v
theories/BarDual_Proof.v
theories/BarPack_Proof.v
theories/Bar_Props.v
theories/RectBounds_Model.v
theories/RectBounds_Spec.v
theories/RectBounds_Proof.v
theories/RectBounds_Props.v
theories/Milp_Model.v
theories/Milp_Spec.v
theories/Milp_Proof.v
theories/MilpPoint_Proof.v
theories/MilpPacking_Proof.v
theories/MilpValue_Proof.v
theories/MilpClaims_Proof.v
theories/MilpRetrieve_Proof.v
theories/Milp_Props.v
theories/Benders_Model.v
theories/Benders_Spec.v
theories/Benders_Proof.v
theories/BendersCuts_Proof.v
theories/BendersLift_Proof.v
theories/BendersMaster_Proof.v
theories/BendersPrec_Proof.v
theories/BendersRun_Proof.v
theories/BendersEnd_Proof.v
theories/BendersHonest_Proof.v
theories/Benders_Props.v
theories/Stack_Model.v
theories/Stack_Spec.v
theories/Stack_Proof.v
theories/StackCheck_Proof.v
theories/Stack_Props.v
theories/StackTree_Model.v
theories/StackTree_Spec.v
theories/StackSky_Proof.v
theories/StackTree_Proof.v
theories/StackTreeBin_Proof.v
theories/StackTreeNode_Proof.v
theories/StackTreeInv_Proof.v
theories/StackTreeBound_Proof.v
theories/StackTree_Props.v
theories/Hyper_Model.v
theories/Hyper_Spec.v
theories/HyperDp_Proof.v
theories/HyperPat_Proof.v
theories/HyperBuild_Proof.v
theories/HyperRec_Proof.v
theories/HyperInf_Proof.v
theories/HyperSearch_Proof.v
theories/HyperOpt_Proof.v
theories/HyperTerm_Proof.v
theories/Hyper_Props.v
theories/BoxTree_Model.v
theories/BoxTree_Spec.v
theories/BoxSky_Proof.v
theories/BoxTreeRes_Proof.v
theories/BoxTree_Proof.v
theories/BoxTreeNode_Proof.v
theories/BoxTreeBound_Proof.v
theories/BoxTree_Props.v
theories/Irr_Model.v
theories/Irr_Spec.v
theories/Irr_Proof.v
theories/Irr_Props.v
theories/IrrBounds_Model.v
theories/IrrBounds_Spec.v
theories/IrrBounds_Proof.v
theories/IrrBounds_Props.v
theories/TaskRun_Model.v
theories/TaskRun_Spec.v
theories/TaskRun_Proof.v
theories/TaskRun_Props.v
theories/BoxBounds_Model.v
theories/BoxBounds_Spec.v
theories/BoxBounds_Proof.v
theories/BoxBounds_Props.v
theories/StackBounds_Model.v
theories/StackBounds_Spec.v
theories/StackBounds_Proof.v
theories/StackBounds_Props.v
theories/GuilBounds_Model.v
theories/GuilBounds_Spec.v
theories/GuilBounds_Proof.v
theories/GuilBounds_Props.v
theories/GuilBuilder_Model.v
theories/GuilBuilder_Spec.v
theories/GuilStack_Proof.v
theories/GuilBuilder_Proof.v
theories/GuilBuilder_Props.v
theories/StackBuilder_Model.v
theories/StackBuilder_Spec.v
theories/StackBuilder_Proof.v
theories/StackBuilder_Props.v
theories/GuilConsume_Props.v
theories/BoxConsume_Props.v
theories/RectConsume_Props.v
theories/OneDimConsume_Props.v
theories/GuilBuild_Model.v
theories/GuilBuild_Spec.v
theories/GuilBuild_Proof.v
theories/GuilBuild_Props.v
theories/GuilFound_Proof.v
theories/GuilFound_Props.v
theories/GuilSort_Model.v
theories/GuilSort_Spec.v
theories/GuilWalk_Proof.v
theories/GuilSort_Proof.v
theories/GuilSort_Props.v
theories/GuilReplay_Props.v
