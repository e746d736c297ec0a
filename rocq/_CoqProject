-Q theories Verif
theories/Base.v
theories/Base_Lemmas.v
theories/Xor_Model.v
theories/Xor_Spec.v
theories/Xor_Proofs.v
theories/Xor_Props.v
theories/Retry_Model.v
theories/Retry_Spec.v
theories/Retry_Proofs.v
theories/Retry_Props.v
theories/Py.v
theories/Codes_Model.v
theories/Smart_Model.v
theories/Smart_Spec.v
theories/Smart_Proofs.v
theories/Smart_Paging_Proofs.v
theories/Smart_Multi_Proofs.v
theories/Smart_Props.v
theories/Redact_Model.v
theories/Redact_Spec.v
theories/Redact_Proofs.v
theories/Redact_Props.v
theories/Child_Model.v
theories/Child_Spec.v
theories/Child_Proofs.v
theories/Child_Props.v
theories/Crypto_Model.v
theories/Crypto_Proofs.v
theories/Klap_Model.v
theories/Klap_Spec.v
theories/Klap_Proofs.v
theories/Klap_Props.v
theories/Aes_Model.v
theories/Aes_Spec.v
theories/Aes_Proofs.v
theories/Aes_Props.v
theories/Cam_Model.v
theories/Cam_Spec.v
theories/Cam_Proofs.v
theories/Cam_Fresh_Proofs.v
theories/Cam_Props.v
theories/Factory_Model.v
theories/Factory_Spec.v
theories/Factory_Proofs.v
theories/Factory_Props.v
theories/Disc_Model.v
theories/Disc_Spec.v
theories/Disc_Proofs.v
theories/Disc_Props.v
theories/Http_Model.v
theories/Http_Props.v
theories/Feature_Model.v
theories/Feature_Props.v
theories/Smod_Model.v
theories/Smod_Spec.v
theories/Smod_Proofs.v
theories/Smod_Props.v
theories/OnSince_Model.v
theories/OnSince_Props.v
theories/Children_Model.v
theories/Children_Props.v
theories/Iot_Model.v
theories/Iot_Spec.v
theories/Iot_Proofs.v
theories/Iot_Props.v
theories/Emeter_Model.v
theories/Emeter_Spec.v
theories/Emeter_Props.v
theories/Strip_Model.v
theories/Strip_Props.v
theories/IotLight_Model.v
theories/IotLight_Props.v
theories/SmartLight_Model.v
theories/SmartLight_Props.v
theories/Gadget_Model.v
theories/Gadget_Props.v
theories/Vacuum_Model.v
theories/Vacuum_Props.v
theories/Effect_Model.v
theories/Effect_Props.v
theories/TimeZone_Model.v
theories/TimeZone_Props.v
theories/Sensor_Model.v
theories/Sensor_Props.v
theories/DevType_Model.v
theories/DevType_Props.v
theories/CamQuery_Model.v
theories/CamQuery_Spec.v
theories/CamQuery_Proofs.v
theories/CamQuery_Props.v
theories/CamMod_Model.v
theories/CamMod_Spec.v
theories/CamMod_Props.v
theories/Feats_Model.v
theories/Feats_Spec.v
theories/Feats_Props.v
theories/Small_Model.v
theories/Small_Props.v
theories/Clock_Model.v
theories/Clock_Props.v
theories/Ssl_Model.v
theories/Ssl_Spec.v
theories/Ssl_Props.v
theories/Linkie_Model.v
theories/Linkie_Props.v
theories/Preset_Model.v
theories/Preset_Props.v
theories/Conc_Model.v
theories/Conc_Spec.v
theories/Conc_Proofs.v
theories/Conc_Props.v
theories/Serial_Model.v
theories/Serial_Props.v
theories/Setup_Model.v
theories/Setup_Props.v
theories/KlapPeer_Spec.v
theories/KlapPeer_Proofs.v
theories/KlapPeer_Props.v
theories/AesPeer_Spec.v
theories/AesPeer_Proofs.v
theories/AesPeer_Props.v
theories/CamPeer_Spec.v
theories/CamPeer_Proofs.v
theories/CamPeer_Props.v
theories/Stack_Spec.v
theories/Stack_Proofs.v
theories/Stack_Peers.v
theories/Stack_Props.v
theories/SslPeer_Spec.v
theories/SslPeer_Proofs.v
theories/SslPeer_Props.v
theories/XorPeer_Spec.v
theories/XorPeer_Proofs.v
theories/XorPeer_Props.v
theories/LinkiePeer_Spec.v
theories/LinkiePeer_Proofs.v
theories/LinkiePeer_Props.v
theories/Stack2_Spec.v
theories/Stack2_Peers.v
theories/Stack2_Props.v
theories/Hub_Model.v
theories/Hub_Spec.v
theories/Hub_Proofs.v
theories/Hub_Props.v
theories/Creds_Model.v
theories/Creds_Spec.v
theories/Creds_Props.v
theories/Crc_Model.v
theories/Probe_Model.v
theories/Probe_Spec.v
theories/Probe_Props.v
theories/Keys_Model.v
theories/Keys_Spec.v
theories/Keys_Props.v
theories/Scene_Model.v
theories/Scene_Spec.v
theories/Scene_Props.v
theories/Cli_Model.v
theories/Cli_Spec.v
theories/Cli_Props.v
theories/Command_Model.v
theories/Command_Spec.v
theories/Command_Props.v
theories/Stats_Model.v
theories/Stats_Spec.v
theories/Stats_Props.v
theories/Sync_Model.v
theories/Sync_Props.v
theories/DiscEnd_Model.v
theories/DiscEnd_Spec.v
theories/DiscEnd_Proofs.v
theories/DiscEnd_Props.v
theories/Family_Model.v
theories/Family_Spec.v
theories/Family_Proofs.v
theories/Family_Props.v
theories/Overlap_Model.v
theories/Overlap_Spec.v
theories/Overlap_Proofs.v
theories/Overlap_Props.v
theories/Out_Model.v
theories/Out_Spec.v
theories/Out_Proofs.v
theories/Out_Props.v
theories/IotUpd_Model.v
theories/IotUpd_Spec.v
theories/IotUpd_Proofs.v
theories/IotUpd_Props.v
theories/Fresh_Model.v
theories/Fresh_Spec.v
theories/Fresh_Props.v
theories/Where_Model.v
theories/Where_Spec.v
theories/Where_Proofs.v
theories/Where_Props.v
theories/Show_Model.v
theories/Show_Spec.v
theories/Show_Props.v
theories/Series_Model.v
theories/Series_Spec.v
theories/Series_Proofs.v
theories/Series_Props.v
theories/Upgrade_Model.v
theories/Upgrade_Spec.v
theories/Upgrade_Props.v
theories/Bound_Model.v
theories/Bound_Spec.v
theories/Bound_Props.v
theories/Old_Model.v
theories/Old_Spec.v
theories/Old_Proofs.v
theories/Old_Props.v
theories/Whole_Model.v
theories/Whole_Spec.v
theories/Whole_Proofs.v
theories/Whole_Props.v
theories/WholeIot_Model.v
theories/WholeIot_Spec.v
theories/WholeIot_Proofs.v
theories/WholeIot_Props.v
theories/WholeHub_Model.v
theories/WholeHub_Spec.v
theories/WholeHub_Proofs.v
theories/WholeHub_Props.v
theories/Power_Model.v
theories/Power_Spec.v
theories/Power_Proofs.v
theories/Power_Props.v
theories/Service_Model.v
theories/Service_Spec.v
theories/Service_Props.v
theories/Setting_Model.v
theories/Setting_Spec.v
theories/Setting_Proofs.v
theories/Setting_Props.v
theories/Manage_Model.v
theories/Manage_Spec.v
theories/Manage_Props.v
theories/Table_Model.v
theories/Table_Spec.v
theories/Table_Proofs.v
theories/Table_Props.v
theories/WholeCam_Model.v
theories/WholeCam_Spec.v
theories/WholeCam_Proofs.v
theories/WholeCam_Props.v
theories/Dump_Model.v
theories/Dump_Spec.v
theories/Dump_Proofs.v
theories/Dump_Props.v
theories/CamHub_Model.v
theories/CamHub_Spec.v
theories/CamHub_Proofs.v
theories/CamHub_Props.v
theories/Sniff_Model.v
theories/Sniff_Spec.v
theories/Sniff_Proofs.v
theories/Sniff_Props.v
theories/Read_Model.v
theories/Read_Spec.v
theories/Read_Proofs.v
theories/Read_Props.v
theories/CamRead_Model.v
theories/CamRead_Spec.v
theories/CamRead_Proofs.v
theories/CamRead_Props.v
theories/IotRead_Model.v
theories/IotRead_Spec.v
theories/IotRead_Proofs.v
theories/IotRead_Props.v
theories/Offer_Model.v
theories/Offer_Spec.v
theories/Offer_Proofs.v
theories/Offer_Proofs2.v
theories/Offer_Props.v
theories/OfferIot_Model.v
theories/OfferIot_Spec.v
theories/OfferIot_Proofs.v
theories/OfferIot_Props.v
theories/Name_Model.v
theories/Name_Spec.v
theories/Name_Props.v
theories/CamName_Model.v
theories/CamName_Spec.v
theories/CamName_Props.v
theories/CamWhy_Spec.v
theories/CamWhy_Proofs.v
theories/CamWhy_Props.v
theories/When_Model.v
theories/When_Props.v
