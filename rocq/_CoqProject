-Q theories Verif
theories/Common.v
theories/Dict.v
theories/Version_Model.v
theories/Version_Spec.v
theories/Version_Proofs.v
theories/Version_Properties.v
theories/Geometry_Model.v
theories/Geometry_Spec.v
theories/Geometry_Proofs.v
theories/Geometry_SAT_Proofs.v
theories/Geometry_Properties.v
theories/Spatial_Model.v
theories/Spatial_Spec.v
theories/Spatial_Proofs.v
theories/Spatial_Properties.v
theories/EntityList_Model.v
theories/EntityList_Spec.v
theories/EntityList_Proofs.v
theories/EntityList_More_Proofs.v
theories/EntityList_Properties.v
theories/TileList_Model.v
theories/TileList_Spec.v
theories/TileList_Proofs.v
theories/TileList_Rename_Proofs.v
theories/TileList_Properties.v
theories/Position_Model.v
theories/Position_Spec.v
theories/Position_Proofs.v
theories/Position_Properties.v
theories/Transform_Model.v
theories/Transform_Spec.v
theories/Transform_Proofs.v
theories/Transform_More_Proofs.v
theories/Transform_Final_Proofs.v
theories/Transform_Flip_Proofs.v
theories/Transform_Properties.v
theories/Wires_Model.v
theories/Wires_Spec.v
theories/Wires_Proofs.v
theories/Wires_More_Proofs.v
theories/Wires_Export_Proofs.v
theories/Wires_Undo_Proofs.v
theories/Wires_Dead_Proofs.v
theories/Wires_Properties.v
theories/Compass_Model.v
theories/Compass_Spec.v
theories/Compass_Proofs.v
theories/Compass_Properties.v
theories/Schedule_Model.v
theories/Schedule_Spec.v
theories/Schedule_Proofs.v
theories/Schedule_More_Proofs.v
theories/Schedule_Properties.v
theories/Train_Model.v
theories/Train_Spec.v
theories/Train_Proofs.v
theories/Train_Place_Proofs.v
theories/Train_Properties.v
theories/Planner_Model.v
theories/Planner_Spec.v
theories/Planner_Proofs.v
theories/Planner_Properties.v
theories/Slots_Model.v
theories/Slots_Spec.v
theories/Slots_Proofs.v
theories/Slots_More_Proofs.v
theories/Slots_Properties.v
theories/Request_Model.v
theories/Request_Spec.v
theories/Request_Proofs.v
theories/Request_Properties.v
theories/Book_Model.v
theories/Book_Spec.v
theories/Book_Proofs.v
theories/Book_More_Proofs.v
theories/Book_Properties.v
theories/Group_Model.v
theories/Group_Spec.v
theories/Group_Proofs.v
theories/Group_Index_Proofs.v
theories/Group_Properties.v
theories/Search_Model.v
theories/Search_Spec.v
theories/Search_Proofs.v
theories/Search_Properties.v
theories/Energy_Model.v
theories/Energy_Spec.v
theories/Energy_Proofs.v
theories/Energy_Properties.v
theories/Order.v
theories/Mods_Model.v
theories/Mods_Spec.v
theories/Mods_Proofs.v
theories/Mods_Properties.v
theories/Utf8.v
theories/Settings_Model.v
theories/Settings_Spec.v
theories/Settings_Proofs.v
theories/Settings_Properties.v
theories/Decider_Model.v
theories/Decider_Spec.v
theories/Decider_Proofs.v
theories/Decider_Properties.v
theories/Belts_Model.v
theories/Belts_Spec.v
theories/Belts_Proofs.v
theories/Belts_Properties.v
theories/Ranking_Model.v
theories/Ranking_Spec.v
theories/Ranking_Proofs.v
theories/Ranking_Properties.v
theories/Codec_Model.v
theories/Codec_Spec.v
theories/Codec_Base64_Proofs.v
theories/Codec_Json_Proofs.v
theories/Codec_Proofs.v
theories/Codec_Properties.v
theories/Assign_Model.v
theories/Assign_Spec.v
theories/Assign_Proofs.v
theories/Assign_Properties.v
theories/Trim_Model.v
theories/Trim_Spec.v
theories/Trim_Proofs.v
theories/Trim_Classes.v
theories/Trim_Check.v
theories/Trim_Class_Proofs.v
theories/Trim_Witness_Proofs.v
theories/Trim_Properties.v
theories/Collide_Model.v
theories/Collide_Spec.v
theories/Collide_Proofs.v
theories/Collide_Stock_Proofs.v
theories/Collide_More_Proofs.v
theories/Collide_Properties.v
theories/Position_Direction_Proofs.v
theories/Position_Direction_Properties.v
theories/Rake_Model.v
theories/Rake_Spec.v
theories/Rake_Proofs.v
theories/Rake_Order_Proofs.v
theories/Rake_Place_Proofs.v
theories/Rake_Witness_Proofs.v
theories/Rake_Properties.v
theories/Rake_Filter_Spec.v
theories/Rake_Filter_Proofs.v
theories/Rake_Filter_Witness_Proofs.v
theories/Rake_Edit_Spec.v
theories/Rake_Edit_Proofs.v
theories/Rake_Filter_Properties.v
theories/Copy_Model.v
theories/Copy_Spec.v
theories/Copy_Proofs.v
theories/Copy_Export_Proofs.v
theories/Copy_Properties.v
theories/Tune_Model.v
theories/Tune_Spec.v
theories/Tune_Proofs.v
theories/Tune_Properties.v
theories/Signal_Model.v
theories/Signal_Spec.v
theories/Signal_Proofs.v
theories/Signal_Properties.v
theories/Shelf_Model.v
theories/Shelf_Spec.v
theories/Shelf_Proofs.v
theories/Shelf_Properties.v
theories/Stock_Model.v
theories/Stock_Spec.v
theories/Stock_Proofs.v
theories/Stock_Properties.v
theories/Merge_Model.v
theories/Merge_Classes.v
theories/Merge_Spec.v
theories/Merge_Proofs.v
theories/Merge_Properties.v
theories/Absorb_Model.v
theories/Absorb_Spec.v
theories/Absorb_Proofs.v
theories/Absorb_Properties.v
theories/Craft_Model.v
theories/Craft_Spec.v
theories/Craft_Proofs.v
theories/Craft_Properties.v
theories/Registry_Model.v
theories/Registry_Spec.v
theories/Registry_Proofs.v
theories/Registry_Properties.v
theories/Surface_Model.v
theories/Surface_Spec.v
theories/Surface_Proofs.v
theories/Surface_Properties.v
theories/Table_Model.v
theories/Table_Spec.v
theories/Table_Proofs.v
theories/Table_Properties.v
theories/Manage_Model.v
theories/Manage_Spec.v
theories/Manage_Proofs.v
theories/Manage_Text_Model.v
theories/Manage_Text_Proofs.v
theories/Manage_Properties.v
theories/Arith_Model.v
theories/Arith_Spec.v
theories/Arith_Proofs.v
theories/Arith_Properties.v
theories/Shorthand_Model.v
theories/Shorthand_Spec.v
theories/Shorthand_Proofs.v
theories/Shorthand_Properties.v
theories/Attr_Model.v
theories/Attr_Table.v
theories/Attr_Spec.v
theories/Attr_Order_Proofs.v
theories/Attr_Proofs.v
theories/Attr_Facts_Proofs.v
theories/Attr_Properties.v
theories/Ctor_Model.v
theories/Ctor_Table.v
theories/Ctor_Spec.v
theories/Ctor_Proofs.v
theories/Ctor_Plan_Proofs.v
theories/Ctor_Facts_Proofs.v
theories/Ctor_Claims_Proofs.v
theories/Ctor_Other_Proofs.v
theories/Ctor_Passed_Proofs.v
theories/Ctor_Properties.v
theories/Sheet_Model.v
theories/Sheet_Spec.v
theories/Sheet_Proofs.v
theories/Sheet_Setup_Proofs.v
theories/Sheet_Claims_Proofs.v
theories/Sheet_Properties.v
theories/Upgrade_Model.v
theories/Upgrade_Spec.v
theories/Upgrade_Proofs.v
theories/Upgrade_Claims_Proofs.v
theories/Upgrade_Properties.v
theories/Report_Model.v
theories/Report_Spec.v
theories/Report_Proofs.v
theories/Report_Claims_Proofs.v
theories/Report_Properties.v
theories/Equal_Model.v
theories/Equal_Spec.v
theories/Equal_Proofs.v
theories/Equal_List_Spec.v
theories/Equal_List_Proofs.v
theories/Equal_Properties.v
theories/Document_Model.v
theories/Document_Spec.v
theories/Document_Proofs.v
theories/Document_Claims_Proofs.v
theories/Document_Read_Proofs.v
theories/Document_Witness_Proofs.v
theories/Document_Properties.v
theories/Stages_Model.v
theories/Stages_Spec.v
theories/Stages_Proofs.v
theories/Stages_Phase_Proofs.v
theories/Stages_Cycle_Proofs.v
theories/Stages_Find_Proofs.v
theories/Stages_Witness_Proofs.v
theories/Stages_Properties.v
theories/Burner_Model.v
theories/Burner_Spec.v
theories/Burner_Proofs.v
theories/Burner_Properties.v
theories/Sections_Model.v
theories/Sections_Spec.v
theories/Sections_Proofs.v
theories/Sections_Call_Proofs.v
theories/Sections_Properties.v
theories/Vector_Model.v
theories/Vector_Spec.v
theories/Vector_Proofs.v
theories/Vector_Names_Proofs.v
theories/Vector_Witness_Proofs.v
theories/Vector_Keys_Proofs.v
theories/Vector_Properties.v
theories/Condition_Model.v
theories/Condition_Spec.v
theories/Condition_Proofs.v
theories/Condition_Properties.v
theories/Speaker_Model.v
theories/Speaker_Spec.v
theories/Speaker_Proofs.v
theories/Speaker_Read_Proofs.v
theories/Speaker_Properties.v
theories/Nest_Model.v
theories/Nest_Spec.v
theories/Nest_Proofs.v
theories/Nest_Path_Proofs.v
theories/Nest_Step_Proofs.v
theories/Nest_Properties.v
theories/Release_Model.v
theories/Release_Spec.v
theories/Release_Proofs.v
theories/Release_Properties.v
theories/Capacity_Model.v
theories/Capacity_Spec.v
theories/Capacity_Proofs.v
theories/Capacity_More_Proofs.v
theories/Capacity_Properties.v
theories/Waiting_Model.v
theories/Waiting_Spec.v
theories/Waiting_Proofs.v
theories/Waiting_Properties.v
theories/Filters_Model.v
theories/Filters_Spec.v
theories/Filters_Proofs.v
theories/Filters_Properties.v
theories/Listing_Model.v
theories/Listing_Spec.v
theories/Listing_Proofs.v
theories/Listing_Properties.v
theories/Echo_Model.v
theories/Echo_Spec.v
theories/Echo_Proofs.v
theories/Echo_Properties.v
theories/Layout_Model.v
theories/Layout_Spec.v
theories/Layout_Proofs.v
theories/Layout_Properties.v
theories/Passage_Model.v
theories/Passage_Spec.v
theories/Passage_Proofs.v
theories/Passage_More_Proofs.v
theories/Passage_Claims_Proofs.v
theories/Passage_Witness_Proofs.v
theories/Passage_Texts_Proofs.v
theories/Passage_Properties.v
