(** From reset to the application: startup(), finalize(), jumpToApplication() of firmware_updater/bootloader/src/bootloader.cpp, and the request for the bootloader by the application (sblib/src/eib/bcu_base.cpp softSystemReset).
    RAM as 32-bit words by address. Builds without DEBUG, GNAX_IO16FM_PROGRAMMING_BUTTON, IAP_EMULATION. *)
From Verif Require Export Base Boot_Model.
Open Scope Z_scope.

(** what the bootloader leaves behind: RAM, SYSMEMREMAP, SysTick->CTRL (is it counting), the programming LED (pin driven low: lit) *)
Record chip := mkChip { ram : Z -> Z; remap : Z; sysTick : bool; led : bool }.
(** what runs after startup(): the bootloader, or the application with this stack pointer and address; None below: a hard fault *)
Inductive running := InBootloader | InApplication (sp pc : Z).
Definition setRam (r : Z -> Z) (a v : Z) : Z -> Z := fun b => if b =? a then v else r b.
(** an access to a word of the flash: aligned (ARMv6-M has no other), inside the flash *)
Definition readWord (L : layout) (fl : flash) (a : Z) : option Z :=
  if negb (a mod 4 =? 0) || (a <? 0) || (flashLast L <? a + 3) then None else Some (le32 fl a).
(** bootloader.cpp:210-213, [n] words left *)
Fixpoint copyVectors (L : layout) (fl : flash) (n : nat) (rom ramAddr : Z) (r : Z -> Z) : option (Z -> Z) :=
  match n with
  | O => Some r
  | S n => match readWord L fl rom with None => None | Some w => copyVectors L fl n (rom + 4) (ramAddr + 4) (setRam r ramAddr w) end
  end.
(** bootloader.cpp:178-189; the 250 ms are waited for, time itself is not modelled *)
Definition finalize (c : chip) : chip := mkChip (ram c) (remap c) false true.
(** bootloader.cpp:196-226; BL_DEFAULT_VECTOR_TABLE_SIZE: 192 / 4 words, bootloader.cpp:43-44 *)
Definition jumpToApplication (L : layout) (fl : flash) (start : Z) (c : chip) : option (running * chip) :=
  let c := finalize c in
  match readWord L fl start, readWord L fl (start + 4) with
  | Some StackTop, Some ResetVector =>
      match copyVectors L fl (192 / 4) start 0x10000000 (ram c) with
      | None => None
      | Some r => Some (InApplication StackTop ResetVector, mkChip r 1 (sysTick c) (led c))
      end
  | _, _ => None
  end.
(** bootloader.cpp:233-258; apci.h:134-136 *)
Definition startupRun (L : layout) (fl : flash) (buttonPressed : bool) (c : chip) : option (running * chip) :=
  let magic := ram c 0x10000000 in
  let c := mkChip (setRam (ram c) 0x10000000 0) (remap c) (sysTick c) (led c) in
  if magic =? 0x5E1FB055 then Some (InBootloader, c)
  else if buttonPressed then Some (InBootloader, c)
  else if checkApplication L fl (descriptor L fl) then jumpToApplication L fl (le32 (descriptor L fl) 0) c
  else Some (InBootloader, c).
(** a reset of the chip: SYSMEMREMAP 2 (UM10398), lib_setup (main.cpp:36-39) starts the SysTick, RAM keeps its content *)
Definition afterReset (r : Z -> Z) : chip := mkChip r 2 true false.
(** bcu_base.cpp:188-205; [into]: restartType is MasterIntoBootloader *)
Definition softSystemReset (into : bool) (r : Z -> Z) : Z -> Z := if into then setRam r 0x10000000 0x5E1FB055 else r.
(** what happens to a device: power on with any content of the RAM, or a restart by the program running; [now]: the RAM at that moment *)
Inductive bevent := Power (now : Z -> Z) (button : bool) | Restart (into : bool) (now : Z -> Z) (button : bool).
Definition boot (L : layout) (fl : flash) (e : bevent) : option (running * chip) :=
  match e with
  | Power now button => startupRun L fl button (afterReset now)
  | Restart into now button => startupRun L fl button (afterReset (softSystemReset into now))
  end.
