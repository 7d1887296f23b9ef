(** IflashModel.v - the internal flash drivers flash-same5x, flash-atmel_eefc and flash-gd32vf103
    (drivers/flash) and eeprom-avr (drivers/eeprom), each with the memory it drives.

    Simplifications:
    - memories are functions from byte offsets; 255 is the erased byte; programming clears bits;
    - an operation acts on the memory when it is started, and the controller is busy as long as the list of
      results of polling says (an empty list: not busy any more); the CPU does not read meanwhile;
    - an assertion that fails takes its error exit (the release behaviour);
    - flash_lock and flash_unlock of the EEFC are left out;
    - flash-pic32mx is left out: it does not compile (it uses fields struct flash_attributes lacks and a
      function flash_get_block_addr nobody defines);
    - the attributes are those flash_probe computes from the right descriptor, except in [same5x_probe]. *)
From Verif Require Import Base.

Definition FEAGAIN : Z := -11.
Definition FEINVAL : Z := -22.
Definition FEFAULT : Z := -14.
Definition FEPERM : Z := -1.
Definition mem := Z -> Z.
(** What the controllers do to the memory. *)
Definition erase_range (m : mem) (from len : Z) : mem := fun a => if (from <=? a) && (a <? from + len) then 255 else m a.
(** The unit of [len] bytes around [at]: its bytes anded with [buf], which is addressed within pages of 512. *)
Definition program_unit (m : mem) (buf : mem) (len at_ : Z) : mem :=
  fun a => if a / len =? at_ / len then Z.land (m a) (buf (a mod 512)) else m a.
Definition empty_buf : mem := fun _ => 255.
(** Bytes stored to flash addresses before a command go to the page buffer. *)
Fixpoint load_buf (buf : mem) (off : Z) (data : list Z) : mem :=
  match data with
  | [] => buf
  | b :: data' => load_buf (fun i => if i =? off mod 512 then b else buf i) (off + 1) data'
  end.

(** * SAME5x NVMCTRL *)
(** [nsize]: bytes of flash; [nlocked]: the lock of each of 32 regions; flags PROGE or ADDRE ([nerr]) and
    LOCKE; polls of STATUS.READY still to come. *)
Record nvm := mkNvm { nsize : Z; nmem : mem; nbuf : mem; nlocked : Z -> bool; nerr : bool; nlocke : bool; npolls : list bool }.
Definition region (h : nvm) (a : Z) : Z := a / (nsize h / 32).
Inductive ncmd := EB | WP | WQW | LR | UR.
(** The hardware: block of 16 pages of 512 bytes, page, quad word; data sheet, NVMCTRL *)
Definition ncommand (c : ncmd) (addr : Z) (h : nvm) : nvm :=
  if negb (addr <? nsize h) then mkNvm (nsize h) (nmem h) (nbuf h) (nlocked h) true (nlocke h) (npolls h) else
  match c with
  | LR => mkNvm (nsize h) (nmem h) (nbuf h) (fun i => if i =? region h addr then true else nlocked h i) (nerr h) (nlocke h) (npolls h)
  | UR => mkNvm (nsize h) (nmem h) (nbuf h) (fun i => if i =? region h addr then false else nlocked h i) (nerr h) (nlocke h) (npolls h)
  | _ =>
    if nlocked h (region h addr) then mkNvm (nsize h) (nmem h) (nbuf h) (nlocked h) (nerr h) true (npolls h) else
    match c with
    | EB => mkNvm (nsize h) (erase_range (nmem h) (addr / 8192 * 8192) 8192) (nbuf h) (nlocked h) (nerr h) (nlocke h) (npolls h)
    | WP => mkNvm (nsize h) (program_unit (nmem h) (nbuf h) 512 addr) empty_buf (nlocked h) (nerr h) (nlocke h) (npolls h)
    | _ => mkNvm (nsize h) (program_unit (nmem h) (nbuf h) 16 addr) empty_buf (nlocked h) (nerr h) (nlocke h) (npolls h)
    end
  end.
(** flash-same5x.c:131-144: erase_unit_len, erase_unit_count, total_size; None: a shift by 32 or more *)
Definition same5x_probe (param : Z) : option (Z * Z * Z) :=
  let psz := param / 65536 in
  if 31 <? psz then None else
  let eul := Z.shiftl 8 psz in let cnt := param mod 65536 in Some (eul, cnt, eul * cnt).
(** struct flash (flash-same5x.h): its state; attributes as flash_probe finds them: pages of 512 bytes. *)
Record sctx := mkSctx { sbusy : bool; seul : Z; stotal : Z }.
(** flash-same5x.c:152-169. INTFLAG |= ... writes ones to every flag that is set: all are cleared. *)
Definition run_cmd_busy (n : Z) (c : sctx) (h : nvm) : sctx * nvm * Z :=
  let ready := match npolls h with [] => true | b :: _ => b end in
  let h := mkNvm (nsize h) (nmem h) (nbuf h) (nlocked h) (nerr h) (nlocke h) (tl (npolls h)) in
  if negb ready then (c, h, FEAGAIN) else
  let c := mkSctx false (seul c) (stotal c) in
  if nerr h then (c, mkNvm (nsize h) (nmem h) (nbuf h) (nlocked h) false false (npolls h), FEFAULT) else (c, h, n).
(** flash-same5x.c:170-190 *)
Definition run_cmd (cmd : ncmd) (addr : Z) (c : sctx) (h : nvm) : sctx * nvm * Z :=
  if sbusy c then run_cmd_busy 0 c h else (mkSctx true (seul c) (stotal c), ncommand cmd addr h, FEAGAIN).
(** flash-same5x.c:192-197 *)
Definition same5x_erase (off : Z) (c : sctx) (h : nvm) : sctx * nvm * Z :=
  if negb (off <? stotal c) then (c, h, FEINVAL) else
  if negb (off mod seul c =? 0) then (c, h, FEINVAL) else run_cmd EB off c h.
(** flash-same5x.c:275-285 *)
Definition same5x_lock (off : Z) (c : sctx) (h : nvm) : sctx * nvm * Z :=
  if negb (off <? stotal c) then (c, h, FEINVAL) else run_cmd LR off c h.
Definition same5x_unlock (off : Z) (c : sctx) (h : nvm) : sctx * nvm * Z :=
  if negb (off <? stotal c) then (c, h, FEINVAL) else run_cmd UR off c h.
(** flash-same5x.c:199-214: whole words only *)
Definition same5x_write_idle (cmd : ncmd) (off : Z) (data : list Z) (n : nat) (c : sctx) (h : nvm) : sctx * nvm * Z :=
  let h := mkNvm (nsize h) (nmem h) (load_buf (nbuf h) off (take (n / 4 * 4) data)) (nlocked h) (nerr h) (nlocke h) (npolls h) in
  (mkSctx true (seul c) (stotal c), ncommand cmd off h, FEAGAIN).
(** flash-same5x.c:216-234 *)
Definition same5x_write_data (cmd : ncmd) (off : Z) (data : list Z) (n : Z) (c : sctx) (h : nvm) : sctx * nvm * Z :=
  if n <=? 0 then (c, h, FEINVAL) else
  if sbusy c then run_cmd_busy n c h else same5x_write_idle cmd off data (Z.to_nat n) c h.
(** flash-same5x.c:236-273, the loop; [k]: nwritten *)
Fixpoint same5x_loop (fuel : nat) (off : Z) (data : list Z) (k : Z) (n : Z) (c : sctx) (h : nvm) : sctx * nvm * Z :=
  match fuel with
  | O => (c, h, k)
  | S fuel =>
      if n =? 0 then (c, h, k) else
      if (off mod seul c =? 0) && (seul c <=? n) then
        let '(c1, h1, res) := same5x_write_data WP (off + k) (drop (Z.to_nat k) data) (seul c) c h in
        if res <? 0 then (c1, h1, if k =? 0 then res else k) else same5x_loop fuel off data (k + res) (n - res) c1 h1
      else if (off mod 16 =? 0) && (16 <=? n) then
        let '(c1, h1, res) := same5x_write_data WQW (off + k) (drop (Z.to_nat k) data) 16 c h in
        if res <? 0 then (c1, h1, if k =? 0 then res else k) else same5x_loop fuel off data (k + res) (n - res) c1 h1
      else (c, h, FEINVAL)
  end.
Definition same5x_write (off : Z) (data : list Z) (c : sctx) (h : nvm) : sctx * nvm * Z :=
  let n := Z.of_nat (length data) in
  if n <=? 0 then (c, h, FEINVAL) else
  if negb (n mod 4 =? 0) then (c, h, FEINVAL) else
  same5x_loop (S (length data)) off data 0 n c h.

(** * SAMx7x EEFC *)
(** [epages] pages of 512 bytes; lock bits by page; FCMDE, FLOCKE; polls of FRDY still to come, with [ebusy]:
    a command is under way. *)
Record eefc := mkEefc { epages : Z; emem : mem; ebuf : mem; elocked : Z -> bool; ecmde : bool; eflocke : bool; ebusy : bool; epolls : list bool }.
Inductive ecmd := EPA | EWP.
Definition eset (h : eefc) (m buf : mem) (l : Z -> bool) (ce le : bool) : eefc := mkEefc (epages h) m buf l ce le true (epolls h).
(** EEFC_FCR: data sheet, EEFC. While a command is under way a new one is ignored. EPA, FARG[1:0] = 2: the
    16 pages from FARG[15:4]. *)
Definition ecommand (c : ecmd) (farg : Z) (h : eefc) : eefc :=
  if ebusy h then h else
  let p := match c with EPA => farg / 16 * 16 | _ => farg end in
  if negb (p <? epages h) then eset h (emem h) (ebuf h) (elocked h) true (eflocke h) else
  match c with
  | EPA => if elocked h p then eset h (emem h) (ebuf h) (elocked h) (ecmde h) true
           else eset h (erase_range (emem h) (p * 512) 8192) (ebuf h) (elocked h) (ecmde h) (eflocke h)
  | EWP => if elocked h p then eset h (emem h) (ebuf h) (elocked h) (ecmde h) true
           else eset h (program_unit (emem h) (ebuf h) 512 (p * 512)) empty_buf (elocked h) (ecmde h) (eflocke h)
  end.
(** ctx->pending; flash-atmel_eefc.c:166-174 and the same in the other functions: FSR is read (its error bits are
    cleared by that), pending reset. *)
Definition eefc_status (h : eefc) : eefc * Z :=
  let ready := match epolls h with [] => true | b :: _ => b end in
  let h1 := mkEefc (epages h) (emem h) (ebuf h) (elocked h) false false (ebusy h && negb ready) (tl (epolls h)) in
  (h1, if eflocke h then FEPERM else if ecmde h then FEINVAL else if ready || negb (ebusy h) then 0 else FEAGAIN).
(** flash-atmel_eefc.c:153-176; [total] = total_size; the erase unit is 16 pages (:131) *)
Definition eefc_erase (total off : Z) (pending : bool) (h : eefc) : bool * eefc * Z :=
  if negb (off mod 8192 =? 0) then (pending, h, FEINVAL) else
  if negb (off <? total) then (pending, h, FEINVAL) else
  if negb pending then (true, ecommand EPA (Z.lor off 2 mod 65536) h, FEAGAIN)
  else let '(h, r) := eefc_status h in (false, h, r).
(** flash-atmel_eefc.c:178-208: no page number in the command *)
Definition eefc_write (total off : Z) (data : list Z) (pending : bool) (h : eefc) : bool * eefc * Z :=
  let n := Z.of_nat (length data) in
  if n <=? 0 then (pending, h, FEINVAL) else
  if negb (off mod 512 =? 0) then (pending, h, FEINVAL) else
  if negb (off + n <? total) then (pending, h, FEINVAL) else
  if negb pending then
    (true, ecommand EWP 0 (mkEefc (epages h) (emem h) (load_buf (ebuf h) off (take 512 data)) (elocked h) (ecmde h) (eflocke h) (ebusy h) (epolls h)), FEAGAIN)
  else let '(h, r) := eefc_status h in (false, h, r).
(** * GD32VF103 FMC *)
(** Flash at 0x08000000; [galias]: stores at 0 and up reach it too. [gpg], [gper]: bits of FMC_CTL. *)
Record fmc := mkFmc { gsize : Z; galias : bool; gmem : mem; gpg : bool; gper : bool; gpolls : list bool }.
(** The call returned, or did something the manual does not specify. *)
Inductive gout := GRet (busy : bool) (h : fmc) (r : Z) | GUnspec.
Definition gpoll (h : fmc) : bool * fmc :=
  (match gpolls h with [] => false | b :: _ => b end, mkFmc (gsize h) (galias h) (gmem h) (gpg h) (gper h) (tl (gpolls h))).
Definition gbase : Z := 134217728.
(** flash-gd32vf103.c:103-122: PER is set, nothing clears PG; START: a page is erased if only PER is set *)
Definition gd32_erase_idle (off : Z) (h : fmc) : gout :=
  let '(b, h) := gpoll h in
  if b then GRet false h FEAGAIN else
  if gpg h then GUnspec else
  GRet true (mkFmc (gsize h) (galias h) (erase_range (gmem h) off 1024) (gpg h) true (gpolls h)) FEAGAIN.
(** flash-gd32vf103.c:124-133: PER stays set *)
Definition gd32_erase_busy (h : fmc) : gout :=
  let '(b, h) := gpoll h in if b then GRet true h FEAGAIN else GRet false h 0.
(** flash-gd32vf103.c:135-148 *)
Definition gd32_erase (off : Z) (busy : bool) (h : fmc) : gout :=
  if negb (off <? gsize h) then GRet busy h FEINVAL else
  if negb (off mod 1024 =? 0) then GRet busy h FEINVAL else
  if busy then gd32_erase_busy h else gd32_erase_idle off h.
(** A word stored at address [a]: programs the flash if it is there (PG set, PER not). *)
Definition gstore (a : Z) (word : list Z) (h : fmc) : option fmc :=
  if gper h then None else
  let off := if gbase <=? a then a - gbase else a in
  if (gbase <=? a) && (off + 4 <=? gsize h) || galias h && (off + 4 <=? gsize h) then
    Some (mkFmc (gsize h) (galias h) (fun x => if (off <=? x) && (x <? off + 4) then Z.land (gmem h x) (nth (Z.to_nat (x - off)) word 255) else gmem h x) (gpg h) (gper h) (gpolls h))
  else None.
(** flash-gd32vf103.c:168-176, the loop *)
Fixpoint gd32_loop (fuel : nat) (off : Z) (data : list Z) (k : Z) (busy : bool) (h : fmc) : gout :=
  match fuel with
  | O => GRet busy h k
  | S fuel =>
      if k =? Z.of_nat (length data) then GRet busy h k else
      let '(b, h) := gpoll h in
      if b then GRet busy h (if k =? 0 then FEAGAIN else k) else
      match gstore (off + k) (take 4 (drop (Z.to_nat k) data)) h with
      | Some h => gd32_loop fuel off data (k + 4) busy h
      | None => GUnspec
      end
  end.
(** flash-gd32vf103.c:150-182; [off] is used as an address *)
Definition gd32_write (off : Z) (data : list Z) (busy : bool) (h : fmc) : gout :=
  let n := Z.of_nat (length data) in
  if n <=? 0 then GRet busy h FEINVAL else
  if negb (n <? gsize h) then GRet busy h FEINVAL else
  if negb (n mod 4 =? 0) then GRet busy h FEINVAL else
  let '(b, h) := gpoll h in
  if b then GRet busy h FEAGAIN else
  gd32_loop (S (length data)) off data 0 busy (mkFmc (gsize h) (galias h) (gmem h) true (gper h) (gpolls h)).

(** * AVR EEPROM *)
(** [abusy]: EEPE is set; EEAR and EEDR; [aspm]: SPMEN; [ablock]: registers cannot be written while EEPE is set (if
    not, writing them spoils the write under way, of address [aaddr]). [alate]: an interrupt comes between the two writes to
    EECR, which are then more than four cycles apart. *)
Record eep := mkEep { amem : mem; abusy : bool; aear : Z; aedr : Z; aspm : bool; ablock : bool; alate : bool }.
Definition aset_ar (v : Z) (h : eep) : eep :=
  if abusy h then if ablock h then h else mkEep (fun a => if a =? aear h then -1 else amem h a) (abusy h) v (aedr h) (aspm h) (ablock h) (alate h)
  else mkEep (amem h) (abusy h) v (aedr h) (aspm h) (ablock h) (alate h).
Definition aset_dr (v : Z) (h : eep) : eep :=
  if abusy h then if ablock h then h else mkEep (fun a => if a =? aear h then -1 else amem h a) (abusy h) (aear h) v (aspm h) (ablock h) (alate h)
  else mkEep (amem h) (abusy h) (aear h) v (aspm h) (ablock h) (alate h).
(** EEMPE, then EEPE: the write starts if they are close enough and none is under way. [v]: the byte it leaves. *)
Definition atrigger (v : Z) (h : eep) : eep :=
  if alate h || abusy h then h else mkEep (fun a => if a =? aear h then v else amem h a) true (aear h) (aedr h) (aspm h) (ablock h) (alate h).
(** eeprom-avr.c:38-54; [count] = C99_EEPROM_AVR_ADDR_COUNT; the byte read *)
Definition avr_eeprom_read (count addr n : Z) (h : eep) : eep * Z * option Z :=
  if negb (addr <? count) then (h, FEINVAL, None) else
  if n <=? 0 then (h, FEINVAL, None) else
  if abusy h then (h, FEAGAIN, None) else
  let h := aset_ar (addr mod 65536) h in
  let h := mkEep (amem h) (abusy h) (aear h) (amem h (aear h)) (aspm h) (ablock h) (alate h) in
  (h, 1, Some (aedr h)).
(** eeprom-avr.c:56-76 *)
Definition avr_eeprom_erase (count addr n : Z) (h : eep) : eep * Z :=
  if negb (addr <? count) then (h, FEINVAL) else
  if n <=? 0 then (h, FEINVAL) else
  if abusy h && aspm h then (h, FEAGAIN) else
  (atrigger 255 (aset_ar (addr mod 65536) h), 1).
(** eeprom-avr.c:78-102 *)
Definition avr_eeprom_write (count addr : Z) (buf : list Z) (h : eep) : eep * Z :=
  if negb (addr <? count) then (h, FEINVAL) else
  match buf with
  | [] => (h, FEINVAL)
  | b :: _ =>
      if abusy h && aspm h then (h, FEAGAIN) else
      let h := aset_dr b (aset_ar (addr mod 65536) h) in
      if negb (aedr h =? b) then (h, FEAGAIN) else (atrigger (aedr h) h, 1)
  end.
