(** Model of the module's life cycle in third_party/e2e/scsi_mock_module.c: what
    is registered with the kernel, and when it is released again.

    Kernel calls are modelled by their documented effect on registrations; their
    answers are an arbitrary environment.  Driver core: device_register probes
    the device with the driver registered on its bus and ignores a failing
    probe; device_unregister calls the bus's remove if the device is bound. *)
From Coq Require Import NArith ZArith List Bool.
From Verif Require Import World EngineE2e KernelDriver.
Import ListNotations.
Local Open Scope list_scope.
Local Open Scope N_scope.

Inductive kobj := BlockDev | RootDev | BusType | MockDriver | MockDevice | HostMem | HostAdded.
Inductive kreg := Got (o : kobj) | Gave (o : kobj).

Record boot := {
  bt_opened : N; bt_disk : N; bt_priv : N;    (* see nvme_driver_init *)
  bt_root : bool;                             (* root_device_register succeeded *)
  bt_bus : Z; bt_driver : Z; bt_device : Z;   (* bus_register, driver_register, device_register *)
  bt_host : bool;                             (* scsi_host_alloc succeeded *)
  bt_add : Z                                  (* scsi_add_host *)
}.

Definition EINVAL : Z := 22.

(** 101-127 bus_driver_probe; [mine]: the device is pseudo_adapter,
    [registered]: the global of that name *)
Definition bus_driver_probe (b : boot) (mine : bool) (registered : N) : Z * list kreg * N :=
  if negb mine || (0 <? registered) then ((-1)%Z, [], registered)
  else if negb (bt_host b) then (Z.opp ENODEV, [], registered)
  else if negb (Z.eqb (bt_add b) 0) then (bt_add b, [Got HostMem; Gave HostMem], registered)
  else (0%Z, [Got HostMem; Got HostAdded], 1).

(** 129-134 bus_remove ([registered] stays as it is) *)
Definition bus_remove : list kreg := [Gave HostAdded; Gave HostMem].

(** 143-150 scsi_mock_add_device: device_register; the result, the
    registrations, whether the device is bound, and [registered] *)
Definition scsi_mock_add_device (b : boot) (registered : N) : Z * list kreg * bool * N :=
  if negb (Z.eqb (bt_device b) 0) then (bt_device b, [], false, registered)
  else
    let '(err, es, reg) := bus_driver_probe b true registered in
    (0%Z, Got MockDevice :: es, Z.eqb err 0, reg).

(** 152-188 scsi_mock_init: result, registrations, whether the device is bound,
    [registered] *)
Definition scsi_mock_init (b : boot) : Z * list kreg * bool * N :=
  let es := if bt_opened b =? 0 then [] else [Got BlockDev] in     (* 155: nvme_driver_init, its result unused *)
  if negb (bt_root b) then (Z.opp EINVAL, es, false, 0)
  else
    let es := es ++ [Got RootDev] in
    if negb (Z.eqb (bt_bus b) 0) then (Z.opp EINVAL, es ++ [Gave RootDev], false, 0)
    else
      let es := es ++ [Got BusType] in
      if negb (Z.eqb (bt_driver b) 0) then (Z.opp EINVAL, es ++ [Gave RootDev; Gave BusType], false, 0)
      else
        let es := es ++ [Got MockDriver] in
        let '(err, es', bound, reg) := scsi_mock_add_device b 0 in
        if negb (Z.eqb err 0) then (Z.opp EINVAL, es ++ es' ++ [Gave RootDev; Gave BusType; Gave MockDriver], bound, reg)
        else (0%Z, es ++ es', bound, reg).

(** 190-196 scsi_mock_exit *)
Definition scsi_mock_exit (bound : bool) : list kreg :=
  (if bound then bus_remove else []) ++ [Gave MockDevice; Gave MockDriver; Gave BusType; Gave RootDev].

(** the kernel the engine talks to once the module is loaded: the globals
    bd_disk and ns of nvme_driver_init *)
Definition after_init (b : boot) (kn : kernel) : kernel :=
  let '(_, disk, ns) := nvme_driver_init (bt_opened b) (bt_disk b) (bt_priv b) in
  {| kn_ns := negb (ns =? 0); kn_disk := disk; kn_admin_q := kn_admin_q kn; kn_io_q := kn_io_q kn;
     kn_alloc := kn_alloc kn; kn_map := kn_map kn; kn_exec := kn_exec kn; kn_ret := kn_ret kn |}.
