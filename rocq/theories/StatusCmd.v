(** Model of lib/translator/status.cc. *)
From Coq Require Import NArith String List Lia Bool Init.Byte.
From Verif Require Import Bytes Layout World ScsiDefs NvmeDefs Common.
Import ListNotations.
Local Open Scope string_scope.
Local Open Scope list_scope.
Local Open Scope N_scope.

(** status.cc 21-26 kDefaultScsiStatus *)
Definition kDefaultScsiStatus : ScsiStatus :=
  {| st_status := kCheckCondition; st_sense_key := kNoSense; st_asc := 0; st_ascq := 0 |}.

Definition mkst (a b c d : N) : ScsiStatus :=
  {| st_status := a; st_sense_key := b; st_asc := c; st_ascq := d |}.

(** status.cc 30-109 StatusToScsi(GenericCommandStatusCode); enum values from
    nvme.h, additional sense codes from scsi.h 75-136 *)
Definition StatusToScsi_generic (sc : N) : ScsiStatus :=
  match sc with
  | 0x00 (* kSuccess *) => mkst kGood kNoSense 0 0
  | 0x01 (* kInvalidOpcode *) => mkst kCheckCondition kIllegalRequest 0x20 0x00
  | 0x02 (* kInvalidField *) => mkst kCheckCondition kIllegalRequest 0x24 0x00
  | 0x04 (* kDataTransferError *) => mkst kCheckCondition kMediumError 0 0
  | 0x05 (* kAbortedPowerLoss *) => mkst kTaskAborted kAbortedCommand 0x0b 0x08
  | 0x06 (* kInternalDeviceError *) => mkst kCheckCondition kHardwareError 0x44 0x00
  | 0x07 (* kAbortedByRequest *) => mkst kTaskAborted kAbortedCommand 0 0
  | 0x08 (* kAbortedSqDeletion *) => mkst kTaskAborted kAbortedCommand 0 0
  | 0x09 (* kAbortedFailedFused *) => mkst kTaskAborted kAbortedCommand 0 0
  | 0x0a (* kAbortedMissingFused *) => mkst kTaskAborted kAbortedCommand 0 0
  | 0x0b (* kInvalidNamespaceOrFormat *) => mkst kCheckCondition kIllegalRequest 0x20 0x09
  | 0x80 (* kLbaOutOfRange *) => mkst kCheckCondition kIllegalRequest 0x21 0x00
  | 0x82 (* kNamespaceNotReady *) => mkst kCheckCondition kNotReady 0x04 0x00
  | _ => kDefaultScsiStatus
  end.

(** status.cc 113-138 StatusToScsi(CommandSpecificStatusCode) *)
Definition StatusToScsi_specific (sc : N) : ScsiStatus :=
  match sc with
  | 0x00 (* kCompletionQueueInvalid *) => mkst kCheckCondition kIllegalRequest 0 0
  | 0x0a (* kInvalidFormat *) => mkst kCheckCondition kIllegalRequest 0x31 0x01
  | 0x80 (* kConflictingAttributes *) => mkst kCheckCondition kIllegalRequest 0x24 0x00
  | _ => kDefaultScsiStatus
  end.

(** status.cc 142-201 StatusToScsi(MediaErrorStatusCode) *)
Definition StatusToScsi_media (sc : N) : ScsiStatus :=
  match sc with
  | 0x80 (* kWriteFaults *) => mkst kCheckCondition kMediumError 0x03 0x00
  | 0x81 (* kUnrecoveredReadError *) => mkst kCheckCondition kMediumError 0x11 0x00
  | 0x82 (* kGuardCheckError *) => mkst kCheckCondition kMediumError 0x10 0x01
  | 0x83 (* kApplicationTagCheckError *) => mkst kCheckCondition kMediumError 0x10 0x02
  | 0x84 (* kReferenceTagCheckError *) => mkst kCheckCondition kMediumError 0x10 0x03
  | 0x85 (* kCompareFailure *) => mkst kCheckCondition kMiscompare 0x1d 0x00
  | 0x86 (* kAccessDenied *) => mkst kCheckCondition kIllegalRequest 0x20 0x09
  | _ => kDefaultScsiStatus
  end.

(** status.cc 205-224 StatusToScsi(StatusCodeType, uint8_t) *)
Definition StatusToScsi (sct sc : N) : ScsiStatus :=
  match sct with
  | 0 (* kGeneric *) => StatusToScsi_generic sc
  | 1 (* kCommandSpecific *) => StatusToScsi_specific sc
  | 2 (* kMediaError *) => StatusToScsi_media sc
  | _ => kDefaultScsiStatus
  end.
