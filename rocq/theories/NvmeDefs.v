(** Transcription of the NVMe structures and constants of
    /repo/third_party/spdk/nvme.h that the translators use. *)

From Coq Require Import NArith List String.
From Verif Require Import Bytes Layout.
Import ListNotations.
Local Open Scope N_scope.
Local Open Scope string_scope.
Local Open Scope list_scope.

(** nvme.h AdminOpcode / NvmOpcode values used by the translators *)
Definition kAdmIdentify : N := 0x06.
Definition kAdmGetFeatures : N := 0x0a.
Definition kNvmFlush : N := 0x00.
Definition kNvmWrite : N := 0x01.
Definition kNvmRead : N := 0x02.
Definition kNvmCompare : N := 0x05.
Definition kNvmDatasetManagement : N := 0x09.

(** nvme.h 197-201 FeatureSelect, 234-.. FeatureType *)
Definition kSelCurrent : N := 0.
Definition kSelDefault : N := 1.
Definition kSelSaved : N := 2.
Definition kVolatileWriteCache : N := 0x06.

(** nvme.h kIdentifyNsListMaxLength *)
Definition kIdentifyNsListMaxLength : nat := 1024.

(** nvme.h 314-339 struct GenericQueueEntryCmd; cdw[i] is the field "cdw1i" *)
Definition GenericCmd : layout :=
  [("opc", 8); ("fuse", 2); ("rsvd1", 4); ("psdt", 2); ("cid", 16); ("nsid", 32); ("rsvd2", 32);
   ("rsvd3", 32); ("mptr", 64); ("prp1", 64); ("prp2", 64); ("cdw10", 32); ("cdw11", 32);
   ("cdw12", 32); ("cdw13", 32); ("cdw14", 32); ("cdw15", 32)].
Example GenericCmd_size : lay_bits GenericCmd = 8 * 64. Proof. reflexivity. Qed.

(** nvme.h 343-371 struct GetFeaturesCmd *)
Definition GetFeaturesCmd : layout :=
  [("opc", 8); ("fuse", 2); ("rsvd1", 4); ("psdt", 2); ("cid", 16); ("nsid", 32); ("rsvd2", 32);
   ("rsvd3", 32); ("mptr", 64); ("prp1", 64); ("prp2", 64); ("fid", 8); ("sel", 2); ("rsvd4", 22);
   ("cdw11_15", 160)].
Example GetFeaturesCmd_size : lay_bits GetFeaturesCmd = 8 * 64. Proof. reflexivity. Qed.

(** nvme.h 375-406 struct DatasetManagementCmd *)
Definition DatasetManagementCmd : layout :=
  [("opc", 8); ("fuse", 2); ("rsvd1", 4); ("psdt", 2); ("cid", 16); ("nsid", 32); ("rsvd2", 32);
   ("rsvd3", 32); ("mptr", 64); ("prp1", 64); ("prp2", 64); ("nr", 8); ("rsvd4", 24); ("idr", 1);
   ("idw", 1); ("ad", 1); ("rsvd5", 29); ("cdw12_15", 128)].
Example DatasetManagementCmd_size : lay_bits DatasetManagementCmd = 8 * 64. Proof. reflexivity. Qed.

(** nvme.h 410-415 struct DatasetManagmentRange (sic) *)
Definition DatasetManagmentRange : layout :=
  [("context_attributes", 32); ("lb_count", 32); ("lba", 64)].
Example DatasetManagmentRange_size : lay_bits DatasetManagmentRange = 8 * 16. Proof. reflexivity. Qed.

(** nvme.h 205-230 struct GenericQueueEntryCpl with CplStatus inlined *)
Definition GenericCpl : layout :=
  [("cdw0", 32); ("rsvd1", 32); ("sqhd", 16); ("sqid", 16); ("cid", 16);
   ("p", 1); ("sc", 8); ("sct", 3); ("rsvd2", 2); ("m", 1); ("dnr", 1)].
Example GenericCpl_size : lay_bits GenericCpl = 8 * 16. Proof. reflexivity. Qed.

(** nvme.h 701-821 struct IdentifyNamespace.  Anonymous sub-structs are
    flattened; [lbaf] is one 512-bit field whose 32-bit elements are indexed by
    [lbaf_lbads] below. *)
Definition IdentifyNamespace : layout :=
  [("nsze", 64); ("ncap", 64); ("nuse", 64);
   ("nsfeat.thin_prov", 1); ("nsfeat.rest", 7);
   ("nlbaf", 8);
   ("flbas.format", 4); ("flbas.extended", 1); ("flbas.reserved2", 3);
   ("mc", 8);
   ("dpc.pit1", 1); ("dpc.pit2", 1); ("dpc.pit3", 1); ("dpc.md_start", 1); ("dpc.md_end", 1);
   ("dpc.pad", 3);
   ("dps.pit", 3); ("dps.md_start", 1); ("dps.reserved4", 4);
   ("nmic", 8); ("nsrescap", 8); ("fpi", 8); ("dlfeat", 8);
   ("nawun", 16); ("nawupf", 16); ("nacwu", 16); ("nabsn", 16); ("nabo", 16); ("nabspf", 16);
   ("noiob", 16); ("nvmcap", 128); ("reserved64", 320);
   ("nguid[0]", 64); ("nguid[1]", 64); ("eui64", 64); ("lbaf", 512);
   ("reserved6", 1536); ("vendor_specific", 29696)].
Example IdentifyNamespace_size : lay_bits IdentifyNamespace = 8 * 4096. Proof. reflexivity. Qed.

(** nvme.h 475-697 struct IdentifyControllerData; members the translators do
    not read are merged into filler fields, positioned by the header's own
    "bytes a-b" comments and static_assert. *)
Definition IdentifyControllerData : layout :=
  [("vid", 16); ("ssvid", 16); ("sn", 160); ("mn", 320); ("fr", 64); ("rab", 8); ("ieee", 24);
   ("cmic", 8); ("mdts", 8); ("cntlid", 16); ("ver", 32); ("rtd3r", 32); ("rtd3e", 32); ("oaes", 32);
   ("ctratt", 32); ("reserved_100", 96); ("fguid", 128); ("reserved_128", 1024);
   (* bytes 256-511: admin command set attributes *)
   ("oacs", 16); ("acl", 8); ("aerl", 8); ("frmw", 8); ("lpa", 8); ("elpe", 8); ("npss", 8);
   ("avscc", 8); ("apsta", 8); ("wctemp", 16); ("cctemp", 16); ("mtfa", 16); ("hmpre", 32);
   ("hmmin", 32); ("tnvmcap", 128); ("unvmcap", 128); ("rpmbs", 32); ("edstt", 16); ("dsto", 8);
   ("fwug", 8); ("kas", 16); ("hctma", 16); ("mntmt", 16); ("mxtmt", 16); ("sanicap", 32);
   ("reserved3", 1440);
   (* bytes 512-703: nvm command set attributes *)
   ("sqes", 8); ("cqes", 8); ("maxcmd", 16); ("nn", 32);
   ("oncs.compare", 1); ("oncs.write_unc", 1); ("oncs.dsm", 1); ("oncs.rest", 13);
   ("fuses.compare_and_write", 1); ("fuses.reserved", 15); ("fna", 8);
   ("vwc.present", 1); ("vwc.rest", 7);
   ("awun", 16); ("awupf", 16); ("nvscc", 8); ("nmpw", 8); ("acwu", 16); ("reserved534", 16);
   ("sgls", 32); ("reserved4", 1824); ("subnqn", 2048); ("reserved5", 6144);
   ("nvmf_specific", 2048); ("psd", 8192); ("vs", 8192)].
(** where InquiryCmd.v and SmallCmds.v read the arrays *)
Example identify_offsets :
  offset_of IdentifyControllerData "sn" = 4 /\ offset_of IdentifyControllerData "mn" = 24 /\
  offset_of IdentifyControllerData "fr" = 64 /\ offset_of IdentifyNamespace "lbaf" = 128.
Proof. split; [reflexivity|]. split; [reflexivity|]. split; reflexivity. Qed.
Example IdentifyControllerData_size : lay_bits IdentifyControllerData = 8 * 4096. Proof. reflexivity. Qed.
