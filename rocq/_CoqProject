-Q theories Verif
theories/Prelude.v
theories/Alloc_Model.v
theories/Alloc_Spec.v
theories/Alloc_Proofs.v
theories/Alloc_Props.v
theories/App_Model.v
theories/App_Spec.v
theories/App_Proofs.v
theories/App_Props.v
theories/Bcd_Model.v
theories/Bcd_Spec.v
theories/Bcd_Proofs.v
theories/Bcd_Props.v
theories/Blob_Model.v
theories/Blob_Spec.v
theories/Blob_Proofs.v
theories/Blob_Props.v
theories/Cache_Model.v
theories/Cache_Spec.v
theories/Cache_Proofs.v
theories/Cache_Props.v
theories/Cf_Model.v
theories/Cf_Spec.v
theories/Cf_Proofs.v
theories/Cf_Props.v
theories/Cfg_Model.v
theories/Cfg_Spec.v
theories/Cfg_Proofs.v
theories/Cfg_Props.v
theories/Chk_Model.v
theories/Chk_Spec.v
theories/Chk_Proofs.v
theories/Chk_Props.v
theories/Codec_Model.v
theories/Codec_Spec.v
theories/Codec_Proofs.v
theories/Codec_Props.v
theories/Conf_Model.v
theories/Conf_Spec.v
theories/Conf_Proofs.v
theories/Conf_Props.v
theories/Depot_Model.v
theories/Depot_Spec.v
theories/Depot_Proofs.v
theories/Depot_Props.v
theories/Descr_Model.v
theories/Descr_Spec.v
theories/Descr_Proofs.v
theories/Descr_Props.v
theories/Dir_Model.v
theories/Dir_Spec.v
theories/Dir_Proofs.v
theories/Dir_Props.v
theories/Elem_Model.v
theories/Elem_Spec.v
theories/Elem_Proofs.v
theories/Elem_Props.v
theories/Field_Model.v
theories/Field_Spec.v
theories/Field_Proofs.v
theories/Field_Props.v
theories/Fix_Model.v
theories/Fix_Spec.v
theories/Fix_Proofs.v
theories/Fix_Props.v
theories/Fname_Model.v
theories/Fname_Spec.v
theories/Fname_Proofs.v
theories/Fname_Props.v
theories/Full_Model.v
theories/Full_Spec.v
theories/Full_Proofs.v
theories/Full_Props.v
theories/Gui_Model.v
theories/Gui_Spec.v
theories/Gui_Proofs.v
theories/Gui_Props.v
theories/Hex_Model.v
theories/Hex_Spec.v
theories/Hex_Proofs.v
theories/Hex_Props.v
theories/Idx_Model.v
theories/Idx_Spec.v
theories/Idx_Proofs.v
theories/Idx_Props.v
theories/Ins_Model.v
theories/Ins_Spec.v
theories/Ins_Proofs.v
theories/Ins_Props.v
theories/Kind_Model.v
theories/Kind_Spec.v
theories/Kind_Proofs.v
theories/Kind_Props.v
theories/Leaf_Model.v
theories/Leaf_Spec.v
theories/Leaf_Proofs.v
theories/Leaf_Props.v
theories/Life_Model.v
theories/Life_Spec.v
theories/Life_Proofs.v
theories/Life_Props.v
theories/Lost_Model.v
theories/Lost_Spec.v
theories/Lost_Proofs.v
theories/Lost_Props.v
theories/Make_Model.v
theories/Make_Spec.v
theories/Make_Proofs.v
theories/Make_Props.v
theories/Obj_Model.v
theories/Obj_Spec.v
theories/Obj_Proofs.v
theories/Obj_Props.v
theories/Old_Model.v
theories/Old_Spec.v
theories/Old_Proofs.v
theories/Old_Props.v
theories/Out_Model.v
theories/Out_Spec.v
theories/Out_Proofs.v
theories/Out_Props.v
theories/Port_Model.v
theories/Port_Spec.v
theories/Port_Proofs.v
theories/Port_Props.v
theories/Rec_Model.v
theories/Rec_Spec.v
theories/Rec_Proofs.v
theories/Rec_Props.v
theories/Rep_Model.v
theories/Rep_Spec.v
theories/Rep_Proofs.v
theories/Rep_Props.v
theories/Run_Model.v
theories/Run_Spec.v
theories/Run_Proofs.v
theories/Run_Props.v
theories/Save_Model.v
theories/Save_Spec.v
theories/Save_Proofs.v
theories/Save_Props.v
theories/Snap_Model.v
theories/Snap_Spec.v
theories/Snap_Proofs.v
theories/Snap_Props.v
theories/Stream_Model.v
theories/Stream_Spec.v
theories/Stream_Proofs.v
theories/Stream_Props.v
theories/Sup_Model.v
theories/Sup_Spec.v
theories/Sup_Proofs.v
theories/Sup_Props.v
theories/Sys_Model.v
theories/Sys_Spec.v
theories/Sys_Proofs.v
theories/Sys_Props.v
theories/Temp_Model.v
theories/Temp_Spec.v
theories/Temp_Proofs.v
theories/Temp_Props.v
theories/Text_Model.v
theories/Text_Spec.v
theories/Text_Proofs.v
theories/Text_Props.v
theories/Time_Model.v
theories/Time_Spec.v
theories/Time_Proofs.v
theories/Time_Props.v
theories/Tmpl_Model.v
theories/Tmpl_Spec.v
theories/Tmpl_Proofs.v
theories/Tmpl_Props.v
theories/Toc_Model.v
theories/Toc_Spec.v
theories/Toc_Proofs.v
theories/Toc_Props.v
theories/Tree_Model.v
theories/Tree_Spec.v
theories/Tree_Proofs.v
theories/Tree_Props.v
theories/Tref_Model.v
theories/Tref_Spec.v
theories/Tref_Proofs.v
theories/Tref_Props.v
theories/Val_Model.v
theories/Val_Spec.v
theories/Val_Proofs.v
theories/Val_Props.v
theories/View_Model.v
theories/View_Spec.v
theories/View_Proofs.v
theories/View_Props.v
theories/Xml_Model.v
theories/Xml_Spec.v
theories/Xml_Proofs.v
theories/Xml_Props.v
theories/Alloc_Bad.v
theories/Alloc_Del.v
theories/Alloc_Facts.v
theories/Alloc_Grow.v
theories/Alloc_Len.v
theories/Alloc_More.v
theories/Alloc_New.v
theories/Alloc_Put.v
theories/Alloc_Whole.v
theories/App_Filter.v
theories/Bcd_More.v
theories/Blob_Hist.v
theories/Blob_More.v
theories/Blob_Obj.v
theories/Blob_Read.v
theories/Blob_Write.v
theories/Cache_Close.v
theories/Cf_Cycle.v
theories/Cf_Empty.v
theories/Cf_Extra.v
theories/Cf_Hist.v
theories/Cf_Write.v
theories/Cfg_Cas.v
theories/Cfg_Paths.v
theories/Cfg_Saved.v
theories/Cfg_Updates.v
theories/Chk_More.v
theories/Codec_More.v
theories/Conf_Demo.v
theories/Conf_Files.v
theories/Depot_Export.v
theories/Depot_Part.v
theories/Field_Keys.v
theories/Fix_More.v
theories/Full_Demo.v
theories/Full_Export.v
theories/Full_Open.v
theories/Gui_More.v
theories/Gui_Trees.v
theories/Hex_Keys.v
theories/Hex_More.v
theories/Idx_Add.v
theories/Idx_Del.v
theories/Idx_Ex.v
theories/Idx_Order.v
theories/Idx_Refute.v
theories/Idx_Split.v
theories/Idx_Tree.v
theories/Leaf_More.v
theories/Leaf_Walk.v
theories/Lists.v
theories/Lost_Tables.v
theories/Obj_Facts.v
theories/Obj_Hist.v
theories/Obj_Make.v
theories/Obj_More.v
theories/Obj_Wrap.v
theories/Obj_Write.v
theories/Port_Facts.v
theories/Port_Import.v
theories/Port_More.v
theories/Rec_Edit.v
theories/Rep_Demo.v
theories/Rep_Export.v
theories/Run_Paths.v
theories/Run_Steps.v
theories/Run_Tools.v
theories/Save_Disk.v
theories/Tree_Empty.v
theories/Xml_Demo.v
theories/Xml_More.v
theories/Xml_Rows.v
theories/Xml_Values.v
