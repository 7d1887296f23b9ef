(** FlashModel.v - model of the external flash drivers (drivers/flash-ext/flash-ext-s25fl1.c and
    flash-ext-sst26vf.c, paths under /repo) and of the chip they drive.

    Both drivers are state machines called again until they stop returning -EAGAIN; they differ in the
    constants and in the places given below. [dv] selects one: [S25FL1] or [SST26VF].

    The SPI driver is abstract: each call of spi_xfer either fails or exchanges some of the bytes it is
    given, as the script says (that this is what spi_xfer does is C71).

    Simplifications:
    - the chip is selected from the first byte of a command to its last one: the end of a command is the
      moment ctx->left becomes 0 (the SPI drivers have no other notion of a command);
    - picoRTOS_assert (picoRTOS.h:160-190) returns the error value, as in a build without assertions;
    - sizes are mathematical integers (no overflow of offset + n);
    - arch_delay_us of the reset functions is nothing. *)
From Verif Require Import Base.

Definition EAGAIN : Z := 11.
Definition EINVAL : Z := 22.
Definition EIO : Z := 5.

(** ** The chip (not in /repo: S25FL1-K and SST26VF datasheets) *)
Record chip := mkChip {
  c_mem : Z -> Z;              (* the array *)
  c_size : Z;
  c_wel : bool;                (* write enable latch *)
  c_busy : bool;               (* an erase, a program or a status write is under way *)
  c_sr1 : Z; c_sr2 : Z; c_sr3 : Z;  (* status registers; bits 0 and 1 of the first one are the two flags above *)
  c_id : list Z;               (* JEDEC identification *)
  c_junk : list Z -> Z         (* what it drives when it has nothing to say *)
}.

Definition addr24 (a b d : Z) : Z := a * 65536 + b * 256 + d.
Definition status1 (c : chip) : Z :=
  c_sr1 c / 4 * 4 + (if c_wel c then 2 else 0) + (if c_busy c then 1 else 0).

(** The byte the chip sends while it receives the one that follows [cur] in a command. *)
Definition chip_answer (c : chip) (cur : list Z) : Z :=
  match cur with
  | 5 :: _ => status1 c
  | 53 :: _ => if c_busy c then c_junk c cur else c_sr2 c
  | 51 :: _ => if c_busy c then c_junk c cur else c_sr3 c
  | 159 :: r => if c_busy c then c_junk c cur else default (c_junk c cur) (c_id c !! length r)
  | 3 :: a :: b :: d :: r =>
      if c_busy c then c_junk c cur else c_mem c ((addr24 a b d + Z.of_nat (length r)) mod c_size c)
  | _ => c_junk c cur
  end.

Definition with_mem (f : Z -> Z) (c : chip) : chip :=
  mkChip f (c_size c) false true (c_sr1 c) (c_sr2 c) (c_sr3 c) (c_id c) (c_junk c).
Definition with_wel (b : bool) (c : chip) : chip :=
  mkChip (c_mem c) (c_size c) b (c_busy c) (c_sr1 c) (c_sr2 c) (c_sr3 c) (c_id c) (c_junk c).
Definition with_status (a b d : Z) (c : chip) : chip :=
  mkChip (c_mem c) (c_size c) false true a b d (c_id c) (c_junk c).
(** The operation under way ends. *)
Definition chip_ready (c : chip) : chip :=
  mkChip (c_mem c) (c_size c) (c_wel c) false (c_sr1 c) (c_sr2 c) (c_sr3 c) (c_id c) (c_junk c).

(** The chip is deselected after the bytes [cmd]: write enable, write disable, 4 KiB erase, page program
    (within a page of 256 bytes, up to 256 bytes), write status registers. Programming clears bits. *)
Definition chip_exec (c : chip) (cmd : list Z) : chip :=
  if c_busy c then c else
  match cmd with
  | [6] => with_wel true c
  | [4] => with_wel false c
  | [32; a; b; d] =>
      if c_wel c then
        let s := addr24 a b d mod c_size c / 4096 in
        with_mem (fun x => if x / 4096 =? s then 255 else c_mem c x) c
      else c
  | 2 :: a :: b :: d :: data =>
      if c_wel c then
        let o := addr24 a b d mod c_size c in
        with_mem (fun x => if x / 256 =? o / 256 then
                             match data !! Z.to_nat ((x - o) mod 256) with
                             | Some v => Z.land (c_mem c x) v | None => c_mem c x end
                           else c_mem c x) c
      else c
  | [1; a; b; d] => if c_wel c then with_status a b d c else c
  | _ => c
  end.

(** ** The driver *)
Inductive dv := S25FL1 | SST26VF.

(** What the next call of spi_xfer does: fail with -e, or exchange up to [k] bytes (at least one); [ready]:
    the operation under way in the chip ends before that. *)
Inductive xo := XErr (e : positive) | XGot (k : nat) (ready : bool).

(** struct flash_ext (flash-ext-s25fl1.h:10-17), the static buffers of the functions, the chip, the bytes of
    the command under way, the commands already sent, the future of spi_xfer. *)
Record fx := mkFx {
  f_left : nat; f_seq : nat; f_jedec : list Z; f_ulen : Z; f_ucount : Z; f_total : Z;
  f_rd : list Z; f_pp : list Z; f_rsr : list Z; f_wsr : list Z; f_jd : list Z;
  f_chip : chip; f_cur : list Z; f_log : list (list Z); f_script : list xo }.

Definition set_left (x : nat) (f : fx) : fx :=
  mkFx x (f_seq f) (f_jedec f) (f_ulen f) (f_ucount f) (f_total f) (f_rd f) (f_pp f) (f_rsr f) (f_wsr f) (f_jd f)
       (f_chip f) (f_cur f) (f_log f) (f_script f).
Definition set_seq (x : nat) (f : fx) : fx :=
  mkFx (f_left f) x (f_jedec f) (f_ulen f) (f_ucount f) (f_total f) (f_rd f) (f_pp f) (f_rsr f) (f_wsr f) (f_jd f)
       (f_chip f) (f_cur f) (f_log f) (f_script f).
Definition set_attr (id : list Z) (count : Z) (f : fx) : fx :=
  mkFx (f_left f) (f_seq f) id 4096 count (4096 * count) (f_rd f) (f_pp f) (f_rsr f) (f_wsr f) (f_jd f)
       (f_chip f) (f_cur f) (f_log f) (f_script f).
Definition set_unit (f : fx) : fx :=
  mkFx (f_left f) (f_seq f) (f_jedec f) 4096 (f_ucount f) (f_total f) (f_rd f) (f_pp f) (f_rsr f) (f_wsr f) (f_jd f)
       (f_chip f) (f_cur f) (f_log f) (f_script f).
Definition set_jedec (id : list Z) (f : fx) : fx :=
  mkFx (f_left f) (f_seq f) id (f_ulen f) (f_ucount f) (f_total f) (f_rd f) (f_pp f) (f_rsr f) (f_wsr f) (f_jd f)
       (f_chip f) (f_cur f) (f_log f) (f_script f).
Definition set_rd (l : list Z) (f : fx) : fx :=
  mkFx (f_left f) (f_seq f) (f_jedec f) (f_ulen f) (f_ucount f) (f_total f) l (f_pp f) (f_rsr f) (f_wsr f) (f_jd f)
       (f_chip f) (f_cur f) (f_log f) (f_script f).
Definition set_pp (l : list Z) (f : fx) : fx :=
  mkFx (f_left f) (f_seq f) (f_jedec f) (f_ulen f) (f_ucount f) (f_total f) (f_rd f) l (f_rsr f) (f_wsr f) (f_jd f)
       (f_chip f) (f_cur f) (f_log f) (f_script f).
Definition set_rsr (l : list Z) (f : fx) : fx :=
  mkFx (f_left f) (f_seq f) (f_jedec f) (f_ulen f) (f_ucount f) (f_total f) (f_rd f) (f_pp f) l (f_wsr f) (f_jd f)
       (f_chip f) (f_cur f) (f_log f) (f_script f).
Definition set_wsr (l : list Z) (f : fx) : fx :=
  mkFx (f_left f) (f_seq f) (f_jedec f) (f_ulen f) (f_ucount f) (f_total f) (f_rd f) (f_pp f) (f_rsr f) l (f_jd f)
       (f_chip f) (f_cur f) (f_log f) (f_script f).
Definition set_jd (l : list Z) (f : fx) : fx :=
  mkFx (f_left f) (f_seq f) (f_jedec f) (f_ulen f) (f_ucount f) (f_total f) (f_rd f) (f_pp f) (f_rsr f) (f_wsr f) l
       (f_chip f) (f_cur f) (f_log f) (f_script f).
Definition set_chip (c : chip) (cur : list Z) (lg : list (list Z)) (f : fx) : fx :=
  mkFx (f_left f) (f_seq f) (f_jedec f) (f_ulen f) (f_ucount f) (f_total f) (f_rd f) (f_pp f) (f_rsr f) (f_wsr f) (f_jd f)
       c cur lg (f_script f).
Definition set_script (l : list xo) (f : fx) : fx :=
  mkFx (f_left f) (f_seq f) (f_jedec f) (f_ulen f) (f_ucount f) (f_total f) (f_rd f) (f_pp f) (f_rsr f) (f_wsr f) (f_jd f)
       (f_chip f) (f_cur f) (f_log f) l.

(** Exchange of bytes. *)
Fixpoint exchange (c : chip) (cur tx : list Z) : list Z * list Z :=
  match tx with
  | [] => (cur, [])
  | b :: tx => let '(cur', rx) := exchange c (cur ++ [b]) tx in (cur', chip_answer c cur :: rx)
  end.

(** spi_xfer(ctx->spi, buf, buf, left): drivers/include/spi.h (no more script: -EAGAIN). *)
Definition spi_call (tx : list Z) (f : fx) : fx * Z * list Z :=
  match f_script f with
  | [] => (f, - EAGAIN, [])
  | XErr e :: r => (set_script r f, - Z.pos e, [])
  | XGot k ready :: r =>
      let c := if ready : bool then chip_ready (f_chip f) else f_chip f in
      let '(cur, rx) := exchange c (f_cur f) (take (S k) tx) in
      (set_script r (set_chip c cur (f_log f) f), Z.of_nat (length rx), rx)
  end.

(** run_cmd: flash-ext-s25fl1.c:8-22, flash-ext-sst26vf.c:19-33. [buf]: the n bytes of the caller's buffer;
    the result gives their value afterwards. *)
Definition run_cmd (f : fx) (buf : list Z) : res (fx * list Z * Z) :=
  let n := length buf in
  let f := if (f_left f =? 0)%nat then set_left n f else f in
  if (n <? f_left f)%nat then UB else
  let index := (n - f_left f)%nat in
  let '(f, r, rx) := spi_call (drop index buf) f in
  if r <? 0 then Ok (f, buf, r) else
  let buf := take index buf ++ rx ++ drop (index + length rx) buf in
  let f := set_left (f_left f - Z.to_nat r) f in
  if (f_left f =? 0)%nat
  then Ok (set_chip (chip_exec (f_chip f) (f_cur f)) [] (f_log f ++ [f_cur f]) f, buf, 0)
  else Ok (f, buf, - EAGAIN).

(** run_single: flash-ext-s25fl1.c:24-29, flash-ext-sst26vf.c:35-38. *)
Definition run_single (cmd : Z) (f : fx) : res (fx * Z) :=
  let! (f, _, r) := run_cmd f [cmd] in Ok (f, r).

(** run_busy: flash-ext-s25fl1.c:31-45, flash-ext-sst26vf.c:40-53. *)
Definition run_busy (f : fx) : res (fx * Z) :=
  let! (f, sr, r) := run_cmd f [5; 0] in
  if r <? 0 then Ok (f, r) else
  if negb (Z.land (default 0 (sr !! 1%nat)) 1 =? 0) then Ok (f, - EAGAIN) else Ok (f, 0).

(** The "for (;;) switch (ctx->seq)" of every function (e.g. flash-ext-s25fl1.c:192-209): [steps] are the
    numbered cases that break, [fin] is the default case. *)
Fixpoint sequence (fuel : nat) (steps : nat -> option (fx -> res (fx * Z))) (fin : fx -> res (fx * Z)) (f : fx)
  : res (fx * Z) :=
  match fuel with
  | O => Fuel
  | S fuel =>
      match steps (f_seq f) with
      | None => fin f
      | Some step =>
          let! (f, r) := step f in
          if r <? 0 then Ok (f, r) else sequence fuel steps fin (set_seq (S (f_seq f)) f)
      end
  end.

(** flash_ext_*_init: flash-ext-s25fl1.c:47-56, flash-ext-sst26vf.c:55-64; static buffers as the program starts. *)
Definition flash_init (c : chip) (script : list xo) : fx :=
  mkFx 0 0 [0; 0; 0] 0 0 0 (repeat 0 260) (repeat 0 260) [0; 0] [1; 0; 0; 0] [0; 0; 0; 0] c [] [] script.

(** flash_ext_*_reset: flash-ext-s25fl1.c:58-77, flash-ext-sst26vf.c:66-83. *)
Definition flash_reset (f : fx) : res (fx * Z) :=
  sequence 4 (fun k => match k with
                       | O => Some (run_single 102)
                       | S O => Some (run_single 153)
                       | _ => None
                       end)
    (fun f => Ok (set_seq 0 f, 0)) f.

(** flash_ext_probe: flash-ext-s25fl1.c:145-176 (a static buffer), flash-ext-sst26vf.c:91-119 (a local one). *)
Definition flash_probe (v : dv) (f : fx) : res (fx * Z) :=
  let buf := match v with S25FL1 => <[0%nat := 159]> (f_jd f) | SST26VF => [159; 0; 0; 0] end in
  let! (f, buf, r) := run_cmd f buf in
  let f := match v with S25FL1 => set_jd buf f | SST26VF => f end in
  if r <? 0 then Ok (f, r) else
  let id := drop 1 buf in
  let f := set_jedec id f in
  match v, id with
  | S25FL1, [1; 64; 21] => Ok (set_attr id 512 f, 0)
  | S25FL1, [1; 64; 22] => Ok (set_attr id 1024 f, 0)
  | S25FL1, [1; 64; 23] => Ok (set_attr id 2048 f, 0)
  | S25FL1, [1; 64; _] => Ok (set_unit f, - EIO)
  | SST26VF, [191; 38; x] =>
      if Z.land x 15 =? 1 then Ok (set_attr id 512 f, 0) else
      if Z.land x 15 =? 2 then Ok (set_attr id 1024 f, 0) else Ok (set_unit f, - EIO)
  | _, _ => Ok (f, - EIO)
  end.

Definition addr_bytes (off : Z) : list Z := [off / 65536 mod 256; off / 256 mod 256; off mod 256].

(** flash_ext_erase: flash-ext-s25fl1.c:184-210, flash-ext-sst26vf.c:128-153. *)
Definition flash_erase (off : Z) (f : fx) : res (fx * Z) :=
  if f_ulen f =? 0 then UB else
  if negb (off mod f_ulen f =? 0) then Ok (f, - EINVAL) else
  if negb (off <? f_total f) then Ok (f, - EINVAL) else
  sequence 4 (fun k => match k with
                       | O => Some (run_single 6)
                       | S O => Some (fun f => let! (f, _, r) := run_cmd f (32 :: addr_bytes off) in Ok (f, r))
                       | S (S O) => Some run_busy
                       | _ => None
                       end)
    (fun f => Ok (set_seq 0 f, 0)) f.

(** flash_ext_read and make_rd_req: flash-ext-s25fl1.c:215-254, flash-ext-sst26vf.c:158-196. The result carries what is copied to
    the caller's buffer, if anything is. There is no case 1. *)
Definition flash_read (off : Z) (n : nat) (f : fx) : res (fx * Z * option (list Z)) :=
  if (n =? 0)%nat then Ok (f, - EINVAL, None) else
  if negb (off + Z.of_nat n <? f_total f) then Ok (f, - EINVAL, None) else
  let n := Nat.min n 256 in
  let! (f', r) :=
    sequence 5 (fun k => match k with
                         | O => Some (fun f => Ok (set_rd (3 :: addr_bytes off ++ drop 4 (f_rd f)) f, Z.of_nat n))
                         | S (S O) => Some (fun f => let! (f, b, r) := run_cmd f (f_rd f) in Ok (set_rd b f, r))
                         | _ => None
                         end)
      (fun f => Ok (f, Z.of_nat n)) f in
  if r <? 0 then Ok (f', r, None) else
  Ok (set_seq 0 f', r, if (f_seq f' =? 3)%nat then Some (take n (drop 4 (f_rd f'))) else None).

(** flash_ext_write and make_pp_req: flash-ext-s25fl1.c:256-300, flash-ext-sst26vf.c:198-239. [data]: the caller's n bytes. *)
Definition flash_write (v : dv) (off : Z) (data : list Z) (f : fx) : res (fx * Z) :=
  if (length data =? 0)%nat then Ok (f, - EINVAL) else
  if negb (off mod 256 =? 0) then Ok (f, - EINVAL) else
  if match v with SST26VF => negb (off + Z.of_nat (length data) <? f_total f) | S25FL1 => false end then Ok (f, - EINVAL) else
  let n := Nat.min (length data) 256 in
  sequence 5 (fun k => match k with
                       | O => Some (run_single 6)
                       | S O => Some (fun f => Ok (set_pp (2 :: addr_bytes off ++ take n data ++ drop (4 + n) (f_pp f)) f, Z.of_nat n))
                       | S (S O) => Some (fun f => let! (f, b, r) := run_cmd f (f_pp f) in Ok (set_pp b f, r))
                       | S (S (S O)) => Some run_busy
                       | _ => None
                       end)
    (fun f => Ok (set_seq 0 f, Z.of_nat n)) f.

(** flash_ext_s25fl1_quad_enable: flash-ext-s25fl1.c:79-143. One turn of the loop; [None]: go on. *)
Definition qe_turn (enable : bool) (f : fx) : res (fx * option Z) :=
  let cmd (f : fx) (b : list Z) (put : list Z -> fx -> fx) :=
    let! (f, b, r) := run_cmd f b in
    Ok (let f := put b f in if r <? 0 then (f, Some r) else (set_seq (S (f_seq f)) f, None)) in
  let rsr1 := default 0 (f_rsr f !! 1%nat) in
  match f_seq f with
  | O => cmd f [5; rsr1] set_rsr
  | 1%nat => cmd (set_wsr (<[1%nat := rsr1]> (f_wsr f)) f) [53; rsr1] set_rsr
  | 2%nat =>
      let q := if enable then Z.lor rsr1 2 else Z.land rsr1 253 in
      let f := set_wsr (<[2%nat := q]> (f_wsr f)) f in
      if q =? rsr1 then Ok (set_seq 0 f, Some 0) else cmd f [51; rsr1] set_rsr
  | 3%nat => cmd (set_wsr (<[3%nat := rsr1]> (f_wsr f)) f) [6] (fun _ f => f)
  | 4%nat => cmd f (<[0%nat := 1]> (f_wsr f)) set_wsr
  | 5%nat =>
      let! (f, r) := run_busy f in
      Ok (if r <? 0 then (f, Some r) else (set_seq (S (f_seq f)) f, None))
  | _ => Ok (set_seq 0 f, None)
  end.
Fixpoint qe_loop (fuel : nat) (enable : bool) (f : fx) : res (fx * Z) :=
  match fuel with
  | O => Fuel
  | S fuel =>
      let! (f, r) := qe_turn enable f in
      match r with Some r => Ok (f, r) | None => qe_loop fuel enable f end
  end.
(** No turn is made for nothing but the one that starts again: the script bounds their number. *)
Definition flash_quad_enable (enable : bool) (f : fx) : res (fx * Z) :=
  qe_loop (2 * length (f_script f) + 3) enable f.
