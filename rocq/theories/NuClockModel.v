(** NuClockModel.v - the clocks of the Nuvoton 8051s: clock-numicro.c and clock-n76e003.c, the same but for the 24 MHz of the first.

    Simplifications: unsigned int has 16 bits, unsigned long 32; the timed access keys are left out; the waits for an oscillator are left out (they end, or
    init fails). *)
From Verif Require Import Base ClockModel.

(** struct clock_settings (clock-numicro.h:30, clock-n76e003.h:29) *)
Record nuset := mkNuSet { ws_fosc : Z; ws_fhirc : Z; ws_feclk : Z; ws_div : Z }.
(** RCTRIM0, RCTRIM1, PCON, CKEN, CKSWT, CKDIV, and [clocks] (clock-numicro.c:49) *)
Record nu := mkNu { w_trim0 : Z; w_trim1 : Z; w_pcon : Z; w_cken : Z; w_ckswt : Z; w_ckdiv : Z; wc_fsys : Z; wc_fosc : Z; wc_feclk : Z; wc_fhirc : Z }.
(** [rctrim] (clock-numicro.c:144, clock-n76e003.c:143), by the precedence of C: - before |; in 16 bits *)
Definition nu_rctrim (s : nu) : Z := Z.lor (w_trim0 s * 2) ((w_trim1 s mod 2 - 15) mod 2 ^ 16).
(** setup_fhirc (clock-numicro.c:140, clock-n76e003.c:139); [ml]: numicro; PCON_POF is 1 < 4, which is 1 (:29) *)
Definition nu_fhirc (ml : bool) (h : Z) (s : nu) : kres nu :=
  if negb ((0 <=? h) && (h <? if ml then 3 else 2)) then KErr else
  let '(mkNu t0 t1 pc en sw dv fs fo fe _) := s in
  if h =? 0 then KOk (mkNu t0 t1 pc en sw dv fs fo fe 16000000) else
  if h =? 1 then KOk (mkNu (nu_rctrim s / 2 mod 2 ^ 8) (nu_rctrim s mod 2) (Z.ldiff pc 1) en sw dv fs fo fe 16600000)
  else KOk (mkNu t0 (Z.lor t1 16) pc en sw dv fs fo fe 24000000).
(** CKSWT_OSC (clock-numicro.c:37) *)
Definition nu_osc (x : Z) : Z := x mod 4 * 2.
(** ckswt_osc_fhirc, ckswt_osc_feclk and ckswt_osc_flirc (clock-numicro.c:71, :95, :121) *)
Definition nu_ckswt (fosc hz : Z) (s : nu) : kres nu :=
  let '(mkNu t0 t1 pc en _ dv fs _ fe fh) := s in
  if fosc =? 0 then KOk (mkNu t0 t1 pc 32 (nu_osc 0) dv fs fh fe fh)
  else if fosc =? 1 then if negb (0 <? hz) then KErr else KOk (mkNu t0 t1 pc 192 (nu_osc 1) dv fs hz fe fh)
  else KOk (mkNu t0 t1 pc en (nu_osc 2) dv fs 10000 fe fh).
(** clock_numicro_init (clock-numicro.c:194), clock_n76e003_init (clock-n76e003.c:179) *)
Definition nu_init (ml : bool) (st : nuset) (s : nu) : kres nu :=
  if negb (0 <? ws_div st) then KErr else
  if negb ((ws_div st =? 1) || (ws_div st mod 2 =? 0)) then KErr else
  if negb (ws_div st <=? 510) then KErr else
  if negb ((0 <=? ws_fosc st) && (ws_fosc st <? 3)) then KErr else
  match nu_fhirc ml (ws_fhirc st) s with
  | KOk s1 =>
      match nu_ckswt (ws_fosc st) (ws_feclk st) s1 with
      | KOk (mkNu t0 t1 pc en sw _ _ fo _ fh) => KOk (mkNu t0 t1 pc en sw (kf (ws_div st / 2) 8) (fo / ws_div st) fo (ws_feclk st) fh)
      | x => x
      end
  | x => x
  end.
Inductive nuid := NFsys | NFosc | NFeclk | NFhirc | NFlirc.
(** clock_get_freq (clock-numicro.c:226, clock-n76e003.c:211) *)
Definition nu_get (s : nu) (id : nuid) : Z :=
  match id with NFsys => wc_fsys s | NFosc => wc_fosc s | NFeclk => wc_feclk s | NFhirc => wc_fhirc s | NFlirc => 10000 end.

(** Hardware. RCTRIM, 9 bits: the more, the slower; 16 MHz (24 with bit 4 of RCTRIM1) with the trim of the factory, 16.6 MHz with 15 less; elsewhere nobody
    says, None. CKEN: bit 5 runs the HIRC, bits 7:6 the external clock. CKSWT: bits 2:1 pick the HIRC, the external clock or the LIRC. CKDIV: 0 is 1, n is 2 n. *)
Definition nu_trim (s : nu) : Z := w_trim0 s * 2 + w_trim1 s mod 2.
Definition nu_hw_hirc (factory : Z) (s : nu) : option hz :=
  if w_cken s / 32 mod 2 =? 0 then Some (0, 1)
  else if nu_trim s =? factory then Some (if w_trim1 s / 16 mod 2 =? 1 then 24000000 else 16000000, 1)
  else if (nu_trim s =? factory - 15) && (w_trim1 s / 16 mod 2 =? 0) then Some (16600000, 1) else None.
Definition nu_hw_eclk (feclk : Z) (s : nu) : hz := if w_cken s / 64 mod 4 =? 3 then (feclk, 1) else (0, 1).
Definition nu_hw (factory feclk : Z) (s : nu) (id : nuid) : option hz :=
  let osc := if w_ckswt s / 2 mod 4 =? 0 then nu_hw_hirc factory s else if w_ckswt s / 2 mod 4 =? 1 then Some (nu_hw_eclk feclk s) else Some (10000, 1) in
  match id with
  | NFsys => match osc with Some q => Some (hdiv q (if w_ckdiv s =? 0 then 1 else 2 * w_ckdiv s)) | None => None end
  | NFosc => osc | NFeclk => Some (nu_hw_eclk feclk s) | NFhirc => nu_hw_hirc factory s | NFlirc => Some (10000, 1)
  end.
