(** Transcription of the SCSI structures and constants of /repo/lib/scsi.h
    that the translators use.  Each layout cites the struct it transcribes;
    the [_size] examples are the header's own static_asserts. *)

From Coq Require Import NArith List String.
From Verif Require Import Bytes Layout.
Import ListNotations.
Local Open Scope N_scope.
Local Open Scope string_scope.
Local Open Scope list_scope.

(** scsi.h 29-41 enum Status *)
Definition kGood : N := 0x0.
Definition kCheckCondition : N := 0x2.
Definition kTaskAborted : N := 0x40.

(** scsi.h 45-50 enum SenseResponse *)
Definition kCurrentFixedError : N := 0x70.
Definition kCurrentDescriptorError : N := 0x72.

(** scsi.h 54-71 enum SenseKey *)
Definition kNoSense : N := 0x0.
Definition kNotReady : N := 0x2.
Definition kMediumError : N := 0x3.
Definition kHardwareError : N := 0x4.
Definition kIllegalRequest : N := 0x5.
Definition kAbortedCommand : N := 0xb.
Definition kMiscompare : N := 0xe.

(** scsi.h 152-187 enum OpCode (the ones Begin/Complete dispatch on) *)
Definition kTestUnitReady : N := 0x00.
Definition kRequestSense : N := 0x03.
Definition kRead6 : N := 0x08.
Definition kWrite6 : N := 0x0a.
Definition kInquiry : N := 0x12.
Definition kModeSense6 : N := 0x1a.
Definition kReadCapacity10 : N := 0x25.
Definition kRead10 : N := 0x28.
Definition kWrite10 : N := 0x2a.
Definition kVerify10 : N := 0x2f.
Definition kSync10 : N := 0x35.
Definition kUnmap : N := 0x42.
Definition kModeSense10 : N := 0x5a.
Definition kRead16 : N := 0x88.
Definition kWrite16 : N := 0x8a.
Definition kWriteSame16 : N := 0x93.
Definition kReportLuns : N := 0xa0.
Definition kMaintenanceIn : N := 0xa3.
Definition kRead12 : N := 0xa8.
Definition kWrite12 : N := 0xaa.

(** scsi.h 191-197 enum ModePageCode *)
Definition kCacheMode : N := 0x08.
Definition kControlMode : N := 0x0a.
Definition kPowerConditionMode : N := 0x1a.
Definition kAllSupportedModes : N := 0x3f.

(** scsi.h 199-207 enum PageCode *)
Definition kSupportedVpd : N := 0x00.
Definition kUnitSerialNumber : N := 0x80.
Definition kDeviceIdentification : N := 0x83.
Definition kExtended : N := 0x86.
Definition kBlockLimitsVpd : N := 0xb0.
Definition kBlockDeviceCharacteristicsVpd : N := 0xb1.
Definition kLogicalBlockProvisioningVpd : N := 0xb2.

(** scsi.h 427-432 struct ControlByte: obsolete:2 naca:1 reserved:3 vendor_specific:2.
    Inlined in each command as the fields below. *)
Definition ControlByte : layout :=
  [("obsolete", 2); ("naca", 1); ("reserved", 3); ("vendor_specific", 2)].
Definition control_byte : layout :=
  [("cb_obsolete", 2); ("naca", 1); ("cb_reserved", 3); ("cb_vendor_specific", 2)].

(** scsi.h 444-450 struct ReadCapacity10Command (Table 119) *)
Definition ReadCapacity10Command : layout :=
  [("reserved_1", 8); ("logical_block_address", 32); ("reserved_2", 16); ("reserved_3", 8)]
  ++ control_byte.
Example ReadCapacity10Command_size : lay_bits ReadCapacity10Command = 8 * 9. Proof. reflexivity. Qed.

(** scsi.h 455-458 struct ReadCapacity10Data (Table 120) *)
Definition ReadCapacity10Data : layout :=
  [("returned_logical_block_address", 32); ("block_length", 32)].
Example ReadCapacity10Data_size : lay_bits ReadCapacity10Data = 8 * 8. Proof. reflexivity. Qed.

(** scsi.h 464-471 struct InquiryCommand (Table 58) *)
Definition InquiryCommand : layout :=
  [("evpd", 1); ("obsolete", 1); ("reserved", 6); ("page_code", 8); ("allocation_length", 16)]
  ++ control_byte.
Example InquiryCommand_size : lay_bits InquiryCommand = 8 * 5. Proof. reflexivity. Qed.

(** scsi.h 513-557 struct InquiryData (Table 59) *)
Definition InquiryData : layout :=
  [("peripheral_device_type", 5); ("peripheral_qualifier", 3); ("reserved_1", 6); ("lu_cong", 1);
   ("rmb", 1); ("version", 8); ("response_data_format", 4); ("hisup", 1); ("normaca", 1);
   ("reserved_2", 2); ("additional_length", 8); ("protect", 1); ("reserved_3", 2);
   ("third_party_copy", 1); ("tpgs", 2); ("acc", 1); ("sccs", 1); ("addr_16", 1); ("reserved_4", 2);
   ("obsolete_1", 1); ("multip", 1); ("vs_1", 1); ("encserv", 1); ("obsolete_2", 1); ("vs_2", 1);
   ("cmdque", 1); ("reserved_5", 1); ("obsolete_3", 1); ("sync", 1); ("wbus_16", 1); ("reserved_6", 1);
   ("obsolete_4", 1); ("vendor_identification", 64); ("product_identification", 128);
   ("product_revision_level", 32); ("vendor_specific_1", 160); ("ius", 1); ("qas", 1); ("clocking", 2);
   ("reserved_7", 4); ("reserved_8", 8); ("vendor_descriptors", 128); ("reserved_9", 176)].
Example InquiryData_size : lay_bits InquiryData = 8 * 96. Proof. reflexivity. Qed.

(** scsi.h 628-634 struct Read6Command (Table 95) *)
Definition Read6Command : layout :=
  [("logical_block_address_1", 5); ("reserved", 3); ("logical_block_address_2", 16);
   ("transfer_length", 8)] ++ control_byte.
Example Read6Command_size : lay_bits Read6Command = 8 * 5. Proof. reflexivity. Qed.

(** scsi.h 639-650 struct Read10Command (Table 97) *)
Definition Read10Command : layout :=
  [("obsolete", 2); ("rarc", 1); ("fua", 1); ("dpo", 1); ("rd_protect", 3);
   ("logical_block_address", 32); ("group_number", 5); ("reserved", 3); ("transfer_length", 16)]
  ++ control_byte.
Example Read10Command_size : lay_bits Read10Command = 8 * 9. Proof. reflexivity. Qed.

(** scsi.h 655-667 struct Read12Command (Table 99) *)
Definition Read12Command : layout :=
  [("obsolete", 2); ("rarc", 1); ("fua", 1); ("dpo", 1); ("rd_protect", 3);
   ("logical_block_address", 32); ("transfer_length", 32); ("group_number", 5); ("reserved", 2);
   ("restricted_mmc_6", 1)] ++ control_byte.
Example Read12Command_size : lay_bits Read12Command = 8 * 11. Proof. reflexivity. Qed.

(** scsi.h 672-685 struct Read16Command (Table 100) *)
Definition Read16Command : layout :=
  [("dld_2", 1); ("obsolete", 1); ("rarc", 1); ("fua", 1); ("dpo", 1); ("rd_protect", 3);
   ("logical_block_address", 64); ("transfer_length", 32); ("group_number", 6); ("dld_0", 1);
   ("dld_1", 1)] ++ control_byte.
Example Read16Command_size : lay_bits Read16Command = 8 * 15. Proof. reflexivity. Qed.

(** scsi.h 690-696 struct Write6Command (Table 215) *)
Definition Write6Command : layout :=
  [("logical_block_address_1", 5); ("reserved", 3); ("logical_block_address_2", 16);
   ("transfer_length", 8)] ++ control_byte.
Example Write6Command_size : lay_bits Write6Command = 8 * 5. Proof. reflexivity. Qed.

(** scsi.h 701-712 struct Write10Command (Table 216) *)
Definition Write10Command : layout :=
  [("obsolete", 2); ("reserved_1", 1); ("fua", 1); ("dpo", 1); ("wr_protect", 3);
   ("logical_block_address", 32); ("group_number", 5); ("reserved_2", 3); ("transfer_length", 16)]
  ++ control_byte.
Example Write10Command_size : lay_bits Write10Command = 8 * 9. Proof. reflexivity. Qed.

(** scsi.h 717-729 struct Write12Command (Table 218) *)
Definition Write12Command : layout :=
  [("obsolete", 2); ("reserved_1", 1); ("fua", 1); ("dpo", 1); ("wr_protect", 3);
   ("logical_block_address", 32); ("transfer_length", 32); ("group_number", 5); ("reserved_2", 2);
   ("restricted_mmc_5", 1)] ++ control_byte.
Example Write12Command_size : lay_bits Write12Command = 8 * 11. Proof. reflexivity. Qed.

(** scsi.h 734-747 struct Write16Command (Table 219) *)
Definition Write16Command : layout :=
  [("dld_2", 1); ("obsolete", 1); ("reserved", 1); ("fua", 1); ("dpo", 1); ("wr_protect", 3);
   ("logical_block_address", 64); ("transfer_length", 32); ("group_number", 6); ("dld_0", 1);
   ("dld_1", 1)] ++ control_byte.
Example Write16Command_size : lay_bits Write16Command = 8 * 15. Proof. reflexivity. Qed.

(** scsi.h 752-764 struct Verify10Command (Table 207) *)
Definition Verify10Command : layout :=
  [("obsolete", 1); ("bytchk", 2); ("reserved_1", 1); ("dpo", 1); ("vr_protect", 3);
   ("logical_block_address", 32); ("group_number", 5); ("reserved_2", 2); ("restricted_mmc_5", 1);
   ("verification_length", 16)] ++ control_byte.
Example Verify10Command_size : lay_bits Verify10Command = 8 * 9. Proof. reflexivity. Qed.

(** scsi.h 833-842 struct ModeSense6Command (Table 73) *)
Definition ModeSense6Command : layout :=
  [("reserved_1", 3); ("dbd", 1); ("reserved_2", 4); ("page_code", 6); ("pc", 2);
   ("sub_page_code", 8); ("alloc_length", 8)] ++ control_byte.
Example ModeSense6Command_size : lay_bits ModeSense6Command = 8 * 5. Proof. reflexivity. Qed.

(** scsi.h 847-858 struct ModeSense10Command (Table 75) *)
Definition ModeSense10Command : layout :=
  [("reserved_1", 3); ("dbd", 1); ("llbaa", 1); ("reserved_2", 3); ("page_code", 6); ("pc", 2);
   ("sub_page_code", 8); ("reserved_3", 24); ("alloc_length", 16)] ++ control_byte.
Example ModeSense10Command_size : lay_bits ModeSense10Command = 8 * 9. Proof. reflexivity. Qed.

(** scsi.h 871-878 struct ReportLunsCommand (Table 147) *)
Definition ReportLunsCommand : layout :=
  [("reserved_1", 8); ("select_report", 8); ("reserved_2", 24); ("alloc_length", 32);
   ("reserved_3", 8)] ++ control_byte.
Example ReportLunsCommand_size : lay_bits ReportLunsCommand = 8 * 11. Proof. reflexivity. Qed.

(** scsi.h 884-887 struct ReportLunsParamData (Table 149) *)
Definition ReportLunsParamData : layout := [("list_byte_length", 32); ("reserved_1", 32)].
Example ReportLunsParamData_size : lay_bits ReportLunsParamData = 8 * 8. Proof. reflexivity. Qed.

(** scsi.h 900-910 struct ReportOpCodesCommand (Table 150), MaintenanceInHeader inlined *)
Definition ReportOpCodesCommand : layout :=
  [("service_action", 5); ("mih_reserved_1", 3); ("reporting_options", 3); ("reserved_1", 4);
   ("rctd", 1); ("requested_op_code", 8); ("requested_service_action", 16); ("alloc_length", 32);
   ("reserved_2", 8)] ++ control_byte.
Example ReportOpCodesCommand_size : lay_bits ReportOpCodesCommand = 8 * 11. Proof. reflexivity. Qed.

(** scsi.h 960-966 struct OneCommandParamData (Table 155) *)
Definition OneCommandParamData : layout :=
  [("reserved_1", 8); ("support", 3); ("reserved_2", 4); ("ctdp", 1); ("cdb_size", 16)].
Example OneCommandParamData_size : lay_bits OneCommandParamData = 8 * 4. Proof. reflexivity. Qed.

(** scsi.h 1028-1036 struct UnmapCommand (Table 204) *)
Definition UnmapCommand : layout :=
  [("anchor", 1); ("reserved_1", 7); ("reserved_2", 32); ("group_number", 5); ("reserved_3", 3);
   ("param_list_length", 16)] ++ control_byte.
Example UnmapCommand_size : lay_bits UnmapCommand = 8 * 9. Proof. reflexivity. Qed.

(** scsi.h 1042-1046 struct UnmapParamList (Table 205) *)
Definition UnmapParamList : layout :=
  [("data_length", 16); ("block_desc_data_length", 16); ("reserved_1", 32)].
Example UnmapParamList_size : lay_bits UnmapParamList = 8 * 8. Proof. reflexivity. Qed.

(** scsi.h 1051-1055 struct UnmapBlockDescriptor (Table 206) *)
Definition UnmapBlockDescriptor : layout :=
  [("logical_block_addr", 64); ("logical_block_count", 32); ("reserved_1", 32)].
Example UnmapBlockDescriptor_size : lay_bits UnmapBlockDescriptor = 8 * 16. Proof. reflexivity. Qed.

(** scsi.h 1060-1089 struct CachingModePage (Table 372) *)
Definition CachingModePage : layout :=
  [("page_code", 6); ("spf", 1); ("ps", 1); ("page_length", 8); ("rcd", 1); ("mf", 1); ("wce", 1);
   ("size", 1); ("disc", 1); ("cap", 1); ("abpf", 1); ("ic", 1); ("wrp", 4); ("drrp", 4);
   ("dptl", 16); ("min_prefetch", 16); ("max_prefetch", 16); ("max_prefetch_ceil", 16);
   ("nv_dis", 1); ("sync_prog", 2); ("vs", 2); ("dra", 1); ("lbcss", 1); ("fsw", 1); ("nocs", 8);
   ("cache_segment_time", 16); ("reserved", 8); ("obsolete", 24)].
Example CachingModePage_size : lay_bits CachingModePage = 8 * 20. Proof. reflexivity. Qed.

(** scsi.h 1094-1123 struct ControlModePage (Table 377) *)
Definition ControlModePage : layout :=
  [("page_code", 6); ("spf", 1); ("ps", 1); ("page_length", 8); ("rlec", 1); ("gltsd", 1);
   ("d_sense", 1); ("dpicz", 1); ("tmf_only", 1); ("tst", 3); ("dque", 1); ("qerr", 2); ("nuar", 1);
   ("qam", 4); ("obsolete_1", 3); ("swp", 1); ("ua_intlck_ctrl", 2); ("rac", 1); ("vs", 1);
   ("autoload_mode", 3); ("reserved", 1); ("rwwp", 1); ("atmpe", 1); ("tas", 1); ("ato", 1);
   ("obsolete_2", 16); ("busy_timeout_period", 16); ("estct", 16)].
Example ControlModePage_size : lay_bits ControlModePage = 8 * 12. Proof. reflexivity. Qed.

(** scsi.h 1128-1151 struct PowerConditionModePage (Table 397) *)
Definition PowerConditionModePage : layout :=
  [("page_code", 6); ("spf", 1); ("ps", 1); ("page_length", 8); ("standby_y", 1); ("reserved_1", 5);
   ("pm_bg_precedence", 2); ("standby_z", 1); ("idle_a", 1); ("idle_b", 1); ("idle_c", 1);
   ("reserved_2", 4); ("idle_a_ct", 32); ("standby_z_ct", 32); ("idle_b_ct", 32); ("idle_c_ct", 32);
   ("standby_y_ct", 32); ("reserved_3", 120); ("reserved_4", 2); ("ccf_stopped", 2);
   ("ccf_standby", 2); ("ccf_idle", 2)].
Example PowerConditionModePage_size : lay_bits PowerConditionModePage = 8 * 40. Proof. reflexivity. Qed.

(** scsi.h 1156-1164 struct ModeParameter6Header (Table 361) *)
Definition ModeParameter6Header : layout :=
  [("mode_data_length", 8); ("medium_type", 8); ("reserved_2", 4); ("dpofua", 1); ("reserved_1", 2);
   ("wp", 1); ("bdl", 8)].
Example ModeParameter6Header_size : lay_bits ModeParameter6Header = 8 * 4. Proof. reflexivity. Qed.

(** scsi.h 1169-1179 struct ModeParameter10Header (Table 362) *)
Definition ModeParameter10Header : layout :=
  [("mode_data_length", 16); ("medium_type", 8); ("reserved_1", 4); ("dpofua", 1); ("reserved_2", 2);
   ("wp", 1); ("longlba", 1); ("reserved_3", 15); ("bdl", 16)].
Example ModeParameter10Header_size : lay_bits ModeParameter10Header = 8 * 8. Proof. reflexivity. Qed.

(** scsi.h 1182-1186 struct ShortLbaBlockDescriptor *)
Definition ShortLbaBlockDescriptor : layout :=
  [("number_of_blocks", 32); ("reserved", 8); ("logical_block_length", 24)].
Example ShortLbaBlockDescriptor_size : lay_bits ShortLbaBlockDescriptor = 8 * 8. Proof. reflexivity. Qed.

(** scsi.h 1189-1193 struct LongLbaBlockDescriptor *)
Definition LongLbaBlockDescriptor : layout :=
  [("number_of_blocks", 64); ("reserved", 32); ("logical_block_length", 32)].
Example LongLbaBlockDescriptor_size : lay_bits LongLbaBlockDescriptor = 8 * 16. Proof. reflexivity. Qed.

(** scsi.h 1198-1204 struct RequestSenseCommand (Table 164) *)
Definition RequestSenseCommand : layout :=
  [("desc", 1); ("reserved_1", 7); ("reserved_2", 16); ("allocation_length", 8)] ++ control_byte.
Example RequestSenseCommand_size : lay_bits RequestSenseCommand = 8 * 5. Proof. reflexivity. Qed.

(** scsi.h 1209-1227 struct FixedFormatSenseData (Table 27) *)
Definition FixedFormatSenseData : layout :=
  [("response_code", 7); ("valid", 1); ("_obsolete", 8); ("sense_key", 4); ("reserved_1", 1);
   ("ili", 1); ("eom", 1); ("filemark", 1); ("info", 32); ("additional_sense_length", 8);
   ("command_specific_info", 32); ("additional_sense_code", 8);
   ("additional_sense_code_qualifier", 8); ("field_replaceable_unit_code", 8);
   ("sense_key_specific_1", 7); ("sksv", 1); ("sense_key_specific_2", 16)].
Example FixedFormatSenseData_size : lay_bits FixedFormatSenseData = 8 * 18. Proof. reflexivity. Qed.

(** scsi.h 1232-1241 struct DescriptorFormatSenseData (Table 12) *)
Definition DescriptorFormatSenseData : layout :=
  [("response_code", 7); ("reserved_1", 1); ("sense_key", 4); ("reserved_2", 4);
   ("additional_sense_code", 8); ("additional_sense_code_qualifier", 8); ("reserved_3", 24);
   ("additional_sense_length", 8)].
Example DescriptorFormatSenseData_size : lay_bits DescriptorFormatSenseData = 8 * 8. Proof. reflexivity. Qed.

(** scsi.h 1246-1253 struct SupportedVitalProductData (Table 483) *)
Definition SupportedVitalProductData : layout :=
  [("peripheral_device_type", 5); ("peripheral_qualifier", 3); ("page_code", 8); ("_reserved", 8);
   ("page_length", 8)].
Example SupportedVitalProductData_size : lay_bits SupportedVitalProductData = 8 * 4. Proof. reflexivity. Qed.

(** scsi.h 1258-1265 struct UnitSerialNumber (Table 484) *)
Definition UnitSerialNumber : layout :=
  [("peripheral_device_type", 5); ("peripheral_qualifier", 3); ("page_code", 8); ("_reserved", 8);
   ("page_length", 8)].
Example UnitSerialNumber_size : lay_bits UnitSerialNumber = 8 * 4. Proof. reflexivity. Qed.

(** scsi.h 1270-1279 struct IdentificationDescriptor (Table 460) *)
Definition IdentificationDescriptor : layout :=
  [("code_set", 4); ("protocol_identifier", 4); ("identifier_type", 4); ("association", 2);
   ("_reserved1", 1); ("protocol_identifier_valid", 1); ("_reserved2", 8); ("identifier_length", 8)].
Example IdentificationDescriptor_size : lay_bits IdentificationDescriptor = 8 * 4. Proof. reflexivity. Qed.

(** scsi.h 1284-1289 struct DeviceIdentificationVpd (Table 459) *)
Definition DeviceIdentificationVpd : layout :=
  [("peripheral_device_type", 5); ("peripheral_qualifier", 3); ("page_code", 8); ("page_length", 8)].
Example DeviceIdentificationVpd_size : lay_bits DeviceIdentificationVpd = 8 * 3. Proof. reflexivity. Qed.

(** scsi.h 1294-1336 struct ExtendedInquiryDataVpd (Table 455) *)
Definition ExtendedInquiryDataVpd : layout :=
  [("peripheral_device_type", 5); ("peripheral_qualifer", 3); ("page_code", 8); ("page_length", 16);
   ("ref_chk", 1); ("app_chk", 1); ("grd_chk", 1); ("spt", 3); ("activate_microcode", 2);
   ("simpsup", 1); ("ordsup", 1); ("headsup", 1); ("prior_sup", 1); ("group_sup", 1);
   ("uask_sup", 1); ("_reserved1", 2); ("v_sup", 1); ("nv_sup", 1); ("crd_sup", 1); ("wu_sup", 1);
   ("_reserved2", 4); ("luiclr", 1); ("_reserved3", 3); ("p_i_i_sup", 1); ("no_pi_chk", 1);
   ("_reserved4", 2); ("obsolete", 1); ("hssrelef", 1); ("rtd_sup", 1); ("_reserved5", 1);
   ("r_sup", 1); ("_reserved6", 3); ("multi_t_nexus_microcode_download", 4); ("_reserved7", 4);
   ("extended_self_test_completion_minutes", 16); ("_reserved8", 5); ("vsa_sup", 1); ("hra_sup", 1);
   ("poa_sup", 1); ("maximum_supported_sense_data_length", 8)].
Example ExtendedInquiryDataVpd_size : lay_bits ExtendedInquiryDataVpd = 8 * 14. Proof. reflexivity. Qed.

(** scsi.h 1341-1357 struct BlockDeviceCharacteristicsVpd *)
Definition BlockDeviceCharacteristicsVpd : layout :=
  [("peripheral_device_type", 5); ("peripheral_qualifier", 3); ("page_code", 8); ("page_length", 16);
   ("medium_rotation_rate", 16); ("product_type", 8); ("nominal_form_factor", 4); ("wacereq", 2);
   ("wabereq", 2); ("vbuls", 1); ("fuab", 1); ("bocs", 1); ("_reserved1", 1); ("zoned", 2);
   ("_reserved2", 2)].
Example BlockDeviceCharacteristicsVpd_size : lay_bits BlockDeviceCharacteristicsVpd = 8 * 9. Proof. reflexivity. Qed.

(** scsi.h 1363-1379 struct LogicalBlockProvisioningVpd (Table 467) *)
Definition LogicalBlockProvisioningVpd : layout :=
  [("peripheral_device_type", 5); ("peripheral_qualifier", 3); ("page_code", 8); ("page_length", 16);
   ("threshold_exponent", 8); ("dp", 1); ("anc_sup", 1); ("lbprz", 3); ("lbpws10", 1); ("lbpws", 1);
   ("lbpu", 1); ("provisioning_type", 3); ("min_percentage", 5); ("threshold_percentage", 8);
   ("provisioning_group_descriptor", 448)].
Example LogicalBlockProvisioningVpd_size : lay_bits LogicalBlockProvisioningVpd = 8 * 64. Proof. reflexivity. Qed.

(** scsi.h 1384-1408 struct BlockLimitsVpd (Table 450) *)
Definition BlockLimitsVpd : layout :=
  [("peripheral_device_type", 5); ("peripheral_qualifier", 3); ("page_code", 8); ("page_length", 16);
   ("wsnz", 1); ("_reserved", 7); ("max_compare_write_length", 8);
   ("optimal_translater_length_granularity", 16); ("max_transfer_length", 32);
   ("optimal_transfer_length", 32); ("max_prefetch_length", 32); ("max_unmap_lba_count", 32);
   ("max_unmap_block_descriptor_count", 32); ("optimal_unmap_granularity", 32);
   ("unmap_granularity_alignment_1", 7); ("ugavalid", 1); ("unmap_graularity_alignment_2", 24);
   ("max_write_same_length", 64); ("max_atomic_transfer_length", 32); ("atomic_alignment", 32);
   ("atomic_transfer_length_granularity", 32);
   ("max_atomic_transfer_length_with_atomic_boundary", 32); ("max_atomic_boundary_size", 32)].
Example BlockLimitsVpd_size : lay_bits BlockLimitsVpd = 8 * 64. Proof. reflexivity. Qed.
