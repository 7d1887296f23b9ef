(** IflashSpec.v - what flash_erase, flash_write and the EEPROM calls must do (drivers/include/flash.h,
    drivers/include/eeprom.h), and the programs that use them. *)
From Verif Require Import Base IflashModel.

(** The bytes at off .. off + length data - 1 programmed with data, the others as they were. *)
Definition prog (m : mem) (off : Z) (data : list Z) : mem :=
  fun a => if (off <=? a) && (a <? off + Z.of_nat (length data)) then Z.land (m a) (nth (Z.to_nat (a - off)) data 255) else m a.
Definition same (m m' : mem) : Prop := forall a, m a = m' a.
Definition is_bytes (m : mem) : Prop := forall a, 0 <= m a < 256.
(** A program calls until it gets something else than -EAGAIN. None: it still waits. *)
Fixpoint until {S} (call : S -> S * Z) (fuel : nat) (s : S) : S * option Z :=
  match fuel with
  | O => (s, None)
  | Datatypes.S fuel => let '(s, r) := call s in if r =? FEAGAIN then until call fuel s else (s, Some r)
  end.
(** It writes a buffer: goes on after the bytes reported as written, until all are or there is an error. *)
Fixpoint write_all {S} (wr : Z -> list Z -> S -> S * Z) (fuel : nat) (off : Z) (data : list Z) (s : S) : S * option Z :=
  match data, fuel with
  | [], _ => (s, Some 0)
  | _, O => (s, None)
  | _, Datatypes.S fuel =>
      let '(s, r) := wr off data s in
      if r =? FEAGAIN then write_all wr fuel off data s else
      if r <? 0 then (s, Some r) else write_all wr fuel (off + r) (drop (Z.to_nat r) data) s
  end.
(** The drivers' calls on pairs of context and hardware. *)
Definition s_erase (off : Z) (s : sctx * nvm) : (sctx * nvm) * Z := same5x_erase off s.1 s.2.
Definition s_lock (off : Z) (s : sctx * nvm) : (sctx * nvm) * Z := same5x_lock off s.1 s.2.
Definition s_write (off : Z) (data : list Z) (s : sctx * nvm) : (sctx * nvm) * Z := same5x_write off data s.1 s.2.
Definition e_erase (total off : Z) (s : bool * eefc) : (bool * eefc) * Z := eefc_erase total off s.1 s.2.
Definition e_write (total off : Z) (data : list Z) (s : bool * eefc) : (bool * eefc) * Z := eefc_write total off data s.1 s.2.
(** GD32: None after something unspecified. *)
Definition g_lift (o : gout) : option (bool * fmc) * Z := match o with GRet b h r => (Some (b, h), r) | GUnspec => (None, -5) end.
Definition g_erase (off : Z) (s : option (bool * fmc)) : option (bool * fmc) * Z :=
  match s with Some (b, h) => g_lift (gd32_erase off b h) | None => (None, -5) end.
Definition g_write (off : Z) (data : list Z) (s : option (bool * fmc)) : option (bool * fmc) * Z :=
  match s with Some (b, h) => g_lift (gd32_write off data b h) | None => (None, -5) end.
(** Idle, as after flash_probe, nothing locked, no error flags. *)
Definition s_ready (s : sctx * nvm) : Prop :=
  sbusy s.1 = false /\ seul s.1 = 512 /\ stotal s.1 = nsize s.2 /\ same (nbuf s.2) empty_buf /\ (forall i, nlocked s.2 i = false) /\ nerr s.2 = false /\ is_bytes (nmem s.2).
Definition e_ready (s : bool * eefc) : Prop :=
  s.1 = false /\ ebusy s.2 = false /\ ecmde s.2 = false /\ eflocke s.2 = false /\ same (ebuf s.2) empty_buf /\ is_bytes (emem s.2).
(** flash_erase of the unit at off: it alone. *)
Definition erase_right {S} (call : Z -> S -> S * Z) (mem_of : S -> mem) (ready : S -> Prop) (unit : Z) : Prop :=
  forall fuel off s s', ready s -> 0 <= off -> until (call off) fuel s = (s', Some 0) -> same (mem_of s') (erase_range (mem_of s) off unit).
(** flash_write in units of [u] bytes: the whole buffer, and nothing else. *)
Definition write_right {S} (wr : Z -> list Z -> S -> S * Z) (mem_of : S -> mem) (ready : S -> Prop) (u : Z) : Prop :=
  forall fuel off data s s', ready s -> 0 <= off -> off mod u = 0 -> Z.of_nat (length data) mod u = 0 -> Forall (fun b => 0 <= b < 256) data ->
  write_all wr fuel off data s = (s', Some 0) -> same (mem_of s') (prog (mem_of s) off data).
Definition g_mem (s : option (bool * fmc)) : mem := match s with Some (_, h) => gmem h | None => fun _ => -1 end.
Definition g_ready (s : option (bool * fmc)) : Prop := match s with Some (b, h) => b = false /\ gsize h <= gbase | None => False end.
(** EEPROM: a call that says 1 byte was written or erased did so. *)
Definition avr_writes (addr b : Z) (h h' : eep) : Prop := same (amem h') (fun a => if a =? addr then b else amem h a).
