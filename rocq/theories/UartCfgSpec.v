(** UartCfgSpec.v - what uart_setup must do: the data sheets' reading of the registers. *)
From Verif Require Import Base UartCfgModel.

(** ** Baud rate *)
(** Clocks per bit as the data sheets give them: setting s, step a/c: one bit lasts s * a / c clocks;
    None: the generator stops or the setting is not allowed. *)
Definition pl011_bit (l : list Z) : option (Z * Z * Z) := match l with [i; x] => if i =? 0 then None else Some (64 * i + x, 1, 4) | _ => None end.
Definition samuart_bit (l : list Z) : option (Z * Z * Z) := match l with [cd] => if cd =? 0 then None else Some (cd, 16, 1) | _ => None end.
Definition pic32_bit (l : list Z) : option (Z * Z * Z) := match l with [brg] => Some (brg + 1, 16, 1) | _ => None end.
Definition ra4_bit (l : list Z) : option (Z * Z * Z) := match l with [brr; n] => Some (brr + 1, 32 * 4 ^ n, 1) | _ => None end.
Definition stm32_bit (l : list Z) : option (Z * Z * Z) :=
  match l with [p; brr] => if brr <? 16 then None else Some (brr, nth (Z.to_nat p) [1; 2; 4; 6; 8; 10; 12; 16; 32; 64; 128; 256] 0, 1) | _ => None end.
Definition tinyavr_bit (l : list Z) : option (Z * Z * Z) := match l with [x] => if x <? 64 then None else Some (x, 1, 4) | _ => None end.
Definition gd32_bit (l : list Z) : option (Z * Z * Z) := match l with [x] => if x <? 16 then None else Some (x, 1, 1) | _ => None end.
Definition avr_bit (l : list Z) : option (Z * Z * Z) := match l with [x] => Some (x + 1, 8, 1) | _ => None end.
Definition lin_bit (l : list Z) : option (Z * Z * Z) := match l with [i; x] => if i =? 0 then None else Some (16 * i + x, 1, 1) | _ => None end.
(** The bit lasts as long as it should, f / b clocks, up to less than [k] steps. *)
Definition within (k f b : Z) (o : option (Z * Z * Z)) : Prop :=
  match o with Some (s, a, c) => Z.abs (f * c - s * a * b) < k * a * b | None => False end.
(** Up to half a step. *)
Definition nearest (f b : Z) (o : option (Z * Z * Z)) : Prop :=
  match o with Some (s, a, c) => 2 * Z.abs (f * c - s * a * b) <= a * b | None => False end.
(** uart_setup of a driver gives the rate it is asked for, up to a step of the generator, or an error. *)
Definition baud_right (setup : Z -> uset -> ureg -> sout) (bit : list Z -> option (Z * Z * Z)) : Prop :=
  forall f st r, 0 < f < 2147483648 -> 0 < s_baud st < 4294967296 ->
  match setup f st r with
  | SRet r' x => x = 0 -> within 1 f (s_baud st) (bit (rlive r'))
  | SUB => False
  end.
(** SERCOM divides otherwise: rate f * (65536 - BAUD) / 2^20. Up to less than k steps. *)
Definition sercom_within (k f b : Z) (l : list Z) : Prop :=
  match l with [x] => Z.abs (b * 1048576 - f * (65536 - x)) < k * f | _ => False end.
Definition sercom_right : Prop :=
  forall f st r, 0 < f < 2147483648 -> 0 < s_baud st < 4294967296 ->
  match sercom_setup f st r with
  | SRet r' x => x = 0 -> sercom_within 1 f (s_baud st) (rlive r')
  | SUB => False
  end.

(** ** Frame format: data bits, parity, stop bits *)
Record frame := mkFrame { f_bits : Z; f_par : upar; f_stop : Z }.
Definition bz (r i : Z) : Z := if Z.testbit r i then 1 else 0.
Definition pl011_frame (r : ureg) : frame :=
  mkFrame (5 + 2 * bz (ra r) 6 + bz (ra r) 5) (if Z.testbit (ra r) 1 then if Z.testbit (ra r) 2 then PEven else POdd else PNone) (1 + bz (ra r) 3).
Definition sercom_frame (r : ureg) : frame :=
  let x := 4 * bz (rb r) 2 + 2 * bz (rb r) 1 + bz (rb r) 0 in
  mkFrame (if x <? 2 then 8 + x else x) (if Z.testbit (ra r) 24 then if Z.testbit (rb r) 13 then POdd else PEven else PNone) (1 + bz (rb r) 6).
(** PAR: 0 even, 1 odd, 4 (and more) none. *)
Definition sam_parity (r : ureg) : upar := if Z.testbit (ra r) 11 then PNone else if Z.testbit (ra r) 9 then POdd else PEven.
Definition samuart_frame (r : ureg) : frame := mkFrame 8 (sam_parity r) 1.
Definition samusart_frame (r : ureg) : frame :=
  mkFrame (if Z.testbit (ra r) 17 then 9 else 5 + 2 * bz (ra r) 7 + bz (ra r) 6) (sam_parity r) (1 + bz (ra r) 13).
Definition avr_parity (r : ureg) : upar := if Z.testbit (ra r) 5 then if Z.testbit (ra r) 4 then POdd else PEven else PNone.
Definition avr_frame (r : ureg) : frame :=
  mkFrame (if Z.testbit (rb r) 2 then 9 else 5 + 2 * bz (ra r) 2 + bz (ra r) 1) (avr_parity r) (1 + bz (ra r) 3).
(** GD32 and STM32: the word counts the parity bit. *)
Definition st_parity (r : ureg) : upar := if Z.testbit (ra r) 10 then if Z.testbit (ra r) 9 then POdd else PEven else PNone.
Definition gd32_frame (r : ureg) : frame :=
  mkFrame (8 + bz (ra r) 12 - bz (ra r) 10) (st_parity r) (1 + bz (rb r) 13).
Definition stm32_frame (r : ureg) : frame :=
  mkFrame ((if Z.testbit (ra r) 28 then 7 else 8 + bz (ra r) 12) - bz (ra r) 10) (st_parity r) (1 + bz (rb r) 13).
(** PDSEL: 8 none, 8 even, 8 odd, 9 none. *)
Definition pic32_frame (r : ureg) : frame :=
  mkFrame (if Z.testbit (ra r) 2 && Z.testbit (ra r) 1 then 9 else 8)
    (if Z.testbit (ra r) 2 then if Z.testbit (ra r) 1 then PNone else POdd else if Z.testbit (ra r) 1 then PEven else PNone) (1 + bz (ra r) 0).
Definition ra4_frame (r : ureg) : frame :=
  mkFrame (if Z.testbit (rb r) 4 then 8 - bz (ra r) 6 else 9) (if Z.testbit (ra r) 5 then if Z.testbit (ra r) 4 then POdd else PEven else PNone) (1 + bz (ra r) 3).
Definition tinyavr_frame (r : ureg) : frame :=
  mkFrame (if Z.testbit (ra r) 2 then 9 else 5 + 2 * bz (ra r) 1 + bz (ra r) 0) (avr_parity r) (1 + bz (ra r) 3).
(** LINFlexD: the parity bit comes on top; PC1 (bit 6) would make the parity bit constant. *)
Definition lin_frame (r : ureg) : frame :=
  mkFrame (if Z.testbit (ra r) 7 then 16 else 7 + bz (ra r) 1) (if Z.testbit (ra r) 2 then if Z.testbit (ra r) 3 then POdd else PEven else PNone) (1 + bz (ra r) 17).
(** What settings ask for: the fields that are not "ignore" replaced. *)
Definition want (st : uset) (fr : frame) : frame :=
  mkFrame (if s_cs st =? 0 then f_bits fr else s_cs st)
          (match s_par st with PIgnore => f_par fr | p => p end)
          (match s_stop st with SIgnore => f_stop fr | S1 => 1 | S2 => 2 end).
(** uart_setup gives the frame it is asked for, or an error and no change. *)
Definition frame_right (setup : Z -> uset -> ureg -> sout) (fr : ureg -> frame) (pre : ureg -> Prop) : Prop :=
  forall f st r, pre r -> 0 < f < 2147483648 -> 0 <= s_baud st < 2097152 -> 0 <= s_cs st ->
  match setup f st r with
  | SRet r' x => if x =? 0 then fr r' = want st (fr r) else x < 0 /\ fr r' = fr r
  | SUB => True
  end.
(** Settings without a baud rate, with a number of data bits from the list or 0, are accepted. *)
Definition accepts (setup : Z -> uset -> ureg -> sout) (cs : list Z) : Prop :=
  forall f st r, s_baud st = 0 -> In (s_cs st) (0 :: cs) -> exists r', setup f st r = SRet r' 0.
(** Bits of registers: the transmitter and receiver are on. *)
Definition keeps_on (setup : Z -> uset -> ureg -> sout) (on : ureg -> bool) : Prop :=
  forall f st r, 0 < f < 2147483648 -> on r = true -> match setup f st r with SRet r' _ => on r' = true | SUB => True end.
Definition sercom_on (r : ureg) : bool := Z.testbit (ra r) 1.
Definition stm32_on (r : ureg) : bool := Z.testbit (ra r) 0.
Definition ra4_on (r : ureg) : bool := Z.testbit (rc r) 4 && Z.testbit (rc r) 5.
Definition lin_on (r : ureg) : bool := negb (Z.testbit (rb r) 0) && negb (Z.testbit (rb r) 1).
