-Q theories Verif
theories/Base.v
theories/StrConst_Model.v
theories/PyLiteral_Spec.v
theories/StrConst_Proofs.v
theories/StrConst_Props.v
theories/PyStr.v
theories/Html_Model.v
theories/Html_Spec.v
theories/Html_Proofs.v
theories/Html_Props.v
theories/Alist.v
theories/Cache_Model.v
theories/Cache_Spec.v
theories/Cache_Proofs.v
theories/Cache_Props.v
theories/NameMapper_Model.v
theories/NameMapper_Spec.v
theories/NameMapper_Proofs.v
theories/NameMapper_Props.v
theories/Settings_Model.v
theories/Settings_Spec.v
theories/Settings_Proofs.v
theories/Settings_Heap.v
theories/Settings_Props.v
theories/Report_Model.v
theories/Report_Spec.v
theories/Report_Proofs.v
theories/Report_Props.v
theories/Pages_Model.v
theories/Pages_Spec.v
theories/Pages_Proofs.v
theories/Pages_Props.v
theories/WebInput_Model.v
theories/WebInput_Spec.v
theories/WebInput_Proofs.v
theories/WebInput_Props.v
theories/Names_Model.v
theories/Names_Spec.v
theories/Names_Proofs.v
theories/Names_Props.v
theories/Small_Model.v
theories/Small_Spec.v
theories/Small_Proofs.v
theories/Small_Props.v
theories/Compile_Model.v
theories/Compile_Spec.v
theories/Compile_Proofs.v
theories/Compile_Props.v
theories/Tree_Model.v
theories/Tree_Spec.v
theories/Tree_Proofs.v
theories/Tree_Props.v
theories/Conc_Model.v
theories/Conc_Spec.v
theories/Conc_Proofs.v
theories/Conc_Props.v
theories/Wrapper_Model.v
theories/Wrapper_Spec.v
theories/Wrapper_Proofs.v
theories/Wrapper_Props.v
theories/Reader_Model.v
theories/Reader_Spec.v
theories/Reader_Proofs.v
theories/Reader_Props.v
theories/Lex_Model.v
theories/Lex_Spec.v
theories/Lex_Proofs.v
theories/LexLines_Proofs.v
theories/LexWhole_Proofs.v
theories/LexStart_Proofs.v
theories/Lex_Props.v
theories/Gen_Model.v
theories/Gen_Spec.v
theories/Gen_Proofs.v
theories/GenLayout_Proofs.v
theories/GenNest_Proofs.v
theories/GenPy_Proofs.v
theories/Gen_Props.v
theories/GenSem_Model.v
theories/GenSem_Spec.v
theories/GenSem_Proofs.v
theories/GenSemUse_Proofs.v
theories/GenSem_Props.v
theories/Expr_Model.v
theories/Expr_Spec.v
theories/Expr_Proofs.v
theories/ExprMain_Proofs.v
theories/ExprFuel_Proofs.v
theories/ExprUse_Proofs.v
theories/VarCode_Spec.v
theories/VarCode_Proofs.v
theories/ExprVerb_Proofs.v
theories/VarPlain_Proofs.v
theories/Expr_Props.v
theories/Tmpl_Model.v
theories/Tmpl_Spec.v
theories/Tmpl_Proofs.v
theories/Tmpl_Props.v
theories/Front_Model.v
theories/FrontParts_Proofs.v
theories/Front_Spec.v
theories/FrontLex_Proofs.v
theories/FrontExpr_Proofs.v
theories/FrontGen_Proofs.v
theories/FrontEat_Proofs.v
theories/FrontSane_Proofs.v
theories/FrontMore_Proofs.v
theories/Front_Proofs.v
theories/FrontWords_Spec.v
theories/FrontWords_Proofs.v
theories/FrontThen_Proofs.v
theories/FrontEnds_Spec.v
theories/LexAdv_Proofs.v
theories/FrontEnds_Proofs.v
theories/FrontUse_Proofs.v
theories/Front_Props.v
theories/CStr_Spec.v
theories/CStr_Proofs.v
theories/CStr_Props.v
theories/FrontEnds_Props.v
theories/DefArgs_Spec.v
theories/Meth_Model.v
theories/Meth_Spec.v
theories/Meth_Proofs.v
theories/Meth_Props.v
theories/Catch_Model.v
theories/Catch_Spec.v
theories/Catch_Proofs.v
theories/Catch_Props.v
theories/Doc_Model.v
theories/Doc_Spec.v
theories/Doc_Proofs.v
theories/Doc_Props.v
theories/Import_Model.v
theories/Import_Spec.v
theories/Import_Proofs.v
theories/Import_Props.v
theories/Class_Model.v
theories/Class_Spec.v
theories/Class_Proofs.v
theories/Class_Props.v
theories/DefArgs_Proofs.v
theories/DefArgs_Props.v
theories/FrontCall_Spec.v
theories/FrontCall_Proofs.v
theories/FrontCall_Props.v
theories/Config_Model.v
theories/Config_Spec.v
theories/Config_Proofs.v
theories/Config_Props.v
theories/PyErr_Model.v
theories/PyErr_Spec.v
theories/PyErr_Proofs.v
theories/PyErr_Props.v
theories/Hook_Model.v
theories/Hook_Spec.v
theories/Hook_Proofs.v
theories/Hook_Props.v
theories/Owner_Model.v
theories/Owner_Spec.v
theories/Owner_Proofs.v
theories/Owner_Props.v
theories/Load_Model.v
theories/Load_Spec.v
theories/Load_Proofs.v
theories/Load_Props.v
theories/Turbo_Model.v
theories/Turbo_Spec.v
theories/Turbo_Proofs.v
theories/Turbo_Props.v
theories/Install_Model.v
theories/Install_Spec.v
theories/Install_Proofs.v
theories/Install_Props.v
theories/Prep_Model.v
theories/Prep_Spec.v
theories/Prep_Proofs.v
theories/PrepLines_Proofs.v
theories/Prep_Props.v
theories/Macro_Model.v
theories/Macro_Spec.v
theories/Macro_Proofs.v
theories/MacroCall_Proofs.v
theories/MacroUse_Proofs.v
theories/Macro_Props.v
theories/Out_Model.v
theories/Out_Spec.v
theories/Codec_Proofs.v
theories/Out_Proofs.v
theories/Out_Props.v
theories/Head_Model.v
theories/Head_Spec.v
theories/Head_Proofs.v
theories/Head_Props.v
theories/Cmd_Model.v
theories/Cmd_Spec.v
theories/Cmd_Proofs.v
theories/Cmd_Props.v
theories/Iface_Model.v
theories/Iface_Spec.v
theories/Iface_Proofs.v
theories/Iface_Props.v
theories/Made_Model.v
theories/Made_Spec.v
theories/Made_Proofs.v
theories/Made_Props.v
theories/Prof_Model.v
theories/Prof_Spec.v
theories/Prof_Proofs.v
theories/Prof_Props.v
theories/Skel_Model.v
theories/Skel_Spec.v
theories/Skel_Proofs.v
theories/Skel_Props.v
theories/Analyze_Model.v
theories/Analyze_Spec.v
theories/Analyze_Proofs.v
theories/Analyze_Props.v
theories/Subber_Model.v
theories/Subber_Spec.v
theories/Subber_Proofs.v
theories/Subber_Props.v
theories/Finder_Model.v
theories/Finder_Spec.v
theories/Finder_Proofs.v
theories/Finder_Props.v
theories/Replace_Model.v
theories/Replace_Spec.v
theories/Replace_Proofs.v
theories/Replace_Props.v
theories/Stats_Props.v
