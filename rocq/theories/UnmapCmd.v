(** Model of lib/translator/unmap.cc. *)
From Coq Require Import NArith String List Lia Bool Init.Byte.
From Verif Require Import Bytes Layout World ScsiDefs NvmeDefs Common.
Import ListNotations.
Local Open Scope string_scope.
Local Open Scope list_scope.
Local Open Scope N_scope.

(** unmap.cc 78-84, reading the block descriptors; None models the [kFailure]
    return.  The list is in order. *)
Fixpoint read_descriptors (n : nat) (buffer_out : span) : M (option (list N)) :=
  match n with
  | O => ret (Some [])
  | S n' =>
      o <- ReadValue UnmapBlockDescriptor buffer_out ;;
      match o with
      | None => ret None
      | Some d =>
          r <- read_descriptors n' (subspan buffer_out (N.of_nat (sizeof UnmapBlockDescriptor))) ;;
          ret match r with Some l => Some (d :: l) | None => None end
      end
  end.

(** unmap.cc 93-103, filling the dataset management ranges.  The placement new
    of [SafePointerCastWrite] leaves the [context_attributes] member as it is in
    the freshly allocated page; the struct is packed so the alignment check
    cannot fail.  false models the [kFailure] return. *)
Fixpoint write_ranges (ds : list N) (dmr_span : span) : M bool :=
  match ds with
  | [] => ret true
  | d :: ds' =>
      if len dmr_span <? N.of_nat (sizeof DatasetManagmentRange) then ret false
      else
        _ <- store (ptr dmr_span + offset_of DatasetManagmentRange "lba")
               (le_encode 8 (bswap_64 (get UnmapBlockDescriptor "logical_block_addr" d))) ;;
        _ <- store (ptr dmr_span + offset_of DatasetManagmentRange "lb_count")
               (le_encode 4 (bswap_32 (get UnmapBlockDescriptor "logical_block_count" d))) ;;
        write_ranges ds' (subspan dmr_span (N.of_nat (sizeof DatasetManagmentRange)))
  end.

(** unmap.cc 29-120 UnmapToNvme *)
Definition UnmapToNvme (scsi_cmd buffer_out : span) (wr : NvmeCmdWrapper) (page_size nsid : N)
  (al : Allocation) : M (StatusCode * NvmeCmdWrapper * Allocation) :=
  o <- ReadValue UnmapCommand scsi_cmd ;;
  match o with
  | None => ret (kFailure, wr, al)
  | Some c =>
      if ntohs (get UnmapCommand "param_list_length" c) <? N.of_nat (sizeof UnmapParamList)
      then ret (kFailure, wr, al)
      else if get UnmapCommand "anchor" c =? 1 then ret (kNoTranslation, wr, al)
      else
        o2 <- ReadValue UnmapParamList buffer_out ;;
        match o2 with
        | None => ret (kFailure, wr, al)
        | Some p =>
            let buffer_out := subspan buffer_out (N.of_nat (sizeof UnmapParamList)) in
            let bd_data_length := ntohs (get UnmapParamList "block_desc_data_length" p) in
            if len buffer_out <? bd_data_length then ret (kFailure, wr, al)
            else if negb (bd_data_length mod N.of_nat (sizeof UnmapBlockDescriptor) =? 0)
            then ret (kInvalidInput, wr, al)
            else
              let block_descriptor_count :=
                bd_data_length / N.of_nat (sizeof UnmapBlockDescriptor) in
              if (block_descriptor_count =? 0) || (256 <? block_descriptor_count)
              then ret (kNoTranslation, wr, al)
              else
                ds <- read_descriptors (N.to_nat block_descriptor_count) buffer_out ;;
                match ds with
                | None => ret (kFailure, wr, al)
                | Some ds =>
                    let num_pages := 1 in
                    ' (st, al) <- SetPages al page_size num_pages 0 ;;
                    if is_failure st then ret (kFailure, wr, al)
                    else
                      ok <- write_ranges ds
                              {| ptr := data_addr al;
                                 len := N.of_nat (sizeof DatasetManagmentRange)
                                        * block_descriptor_count |} ;;
                      if negb ok then ret (kFailure, wr, al)
                      else
                        let bd_count_byte := u8 (block_descriptor_count - 1) in
                        let dataset_cmd := mk DatasetManagementCmd
                          [("opc", kNvmDatasetManagement); ("nsid", nsid);
                           ("nr", bd_count_byte); ("ad", 1)] in
                        let dataset_cmd :=
                          set DatasetManagementCmd "prp1" (data_addr al) dataset_cmd in
                        let wr := set_cmd wr dataset_cmd in
                        let wr := set_buffer_len wr (u32 (page_size * num_pages)) in
                        let wr := set_is_admin wr true in
                        ret (kSuccess, wr, al)
                end
        end
  end.
