(** IrqProofs.v - proofs about IrqModel. *)
From Verif Require Import Base IrqModel IrqSpec.
Local Open Scope Z_scope.

(** * Registration *)

Lemma below_iff : forall n i, below n i = true <-> 0 <= i < n.
Proof. intros n i. unfold below. rewrite andb_true_iff, Z.leb_le, Z.ltb_lt. done. Qed.
Lemma sto_same : forall m a v, sto m a v a = v.
Proof. intros m a v. unfold sto. by rewrite Z.eqb_refl. Qed.
Lemma sto_other : forall m a v b, b <> a -> sto m a v b = m b.
Proof. intros m a v b Hb. unfold sto. by rewrite (proj2 (Z.eqb_neq _ _) Hb). Qed.
Lemma sane_cons : forall P i fn priv h, sane P ((i, fn, priv) :: h) -> ip_irq P i = true /\ 0 < fn < 2 ^ 32 /\ sane P h.
Proof.
  intros P i fn priv h H. destruct (H i fn priv ltac:(constructor)) as [H1 H2]. split; [done|]. split; [done|].
  intros j f p Hj. apply (H j f p). by constructor.
Qed.
Lemma handler_in : forall h irq fn priv, handler h irq = Some (fn, priv) -> (irq, fn, priv) ∈ h.
Proof.
  intros h irq fn priv. induction h as [|[[i f] p] h IH]; [done|]. cbn [handler]. destruct (handler h irq) as [x|] eqn:E.
  - intros [= ->]. constructor. by apply IH.
  - destruct (i =? irq) eqn:E1; [|done]. apply Z.eqb_eq in E1 as ->. intros [= -> ->]. constructor.
Qed.

Lemma slots : forall P b (f p : Z -> Z) (g : Z -> Z),
  (forall irq fn priv irq' m, ip_irq P irq = true -> ip_irq P irq' = true ->
     ip_reg P b irq fn priv m (f irq') = (if irq =? irq' then fn else m (f irq')) /\
     ip_reg P b irq fn priv m (p irq') = (if irq =? irq' then g priv else m (p irq'))) ->
  forall h m irq, sane P h -> ip_irq P irq = true ->
    registered P b h m (f irq) = match handler h irq with Some x => fst x | None => m (f irq) end /\
    registered P b h m (p irq) = match handler h irq with Some x => g (snd x) | None => m (p irq) end.
Proof.
  intros P b f p g Hr h. induction h as [|[[i fn] priv] h IH]; intros m irq Hs Hi; [done|].
  apply sane_cons in Hs as (Hd & Hf & Hs). unfold registered. cbn [fold_left handler fst snd].
  destruct (IH (ip_reg P b i fn priv m) irq Hs Hi) as [IH1 IH2]. unfold registered in IH1, IH2. rewrite IH1, IH2.
  destruct (Hr i fn priv irq m Hd Hi) as [H1 H2]. rewrite H1, H2.
  destruct (handler h irq) as [x|]; [done|]. destruct (i =? irq); done.
Qed.
Lemma outside : forall P b (a : Z),
  (forall irq fn priv m, ip_irq P irq = true -> ip_reg P b irq fn priv m a = m a) ->
  forall h m, sane P h -> registered P b h m a = m a.
Proof.
  intros P b a Hr h. induction h as [|[[i fn] priv] h IH]; intros m Hs; [done|].
  apply sane_cons in Hs as (Hd & Hf & Hs). unfold registered. cbn [fold_left fst snd].
  pose proof (IH (ip_reg P b i fn priv m) Hs) as H1. unfold registered in H1. rewrite H1. by apply Hr.
Qed.

(** From the addresses: the entry of irq is at [f irq], [p irq], and the handler reads there. *)
Lemma port_ok : forall w al P (f p : Z * Z -> Z -> Z),
  (forall b irq fn priv irq' m, placed w al P b -> ip_irq P irq = true -> ip_irq P irq' = true ->
     ip_reg P b irq fn priv m (f b irq') = (if irq =? irq' then fn else m (f b irq')) /\
     ip_reg P b irq fn priv m (p b irq') = (if irq =? irq' then priv else m (p b irq'))) ->
  (forall b irq fn priv m a, placed w al P b -> ip_irq P irq = true -> ~ in_tables P b a -> ip_reg P b irq fn priv m a = m a) ->
  (forall b irq m, placed w al P b -> ip_irq P irq = true ->
     serve P b irq m = if m (f b irq) =? 0 then Halted else Called (m (f b irq)) (m (p b irq)) Epilogue) ->
  (forall b irq, placed w al P b -> ip_irq P irq = true -> in_tables P b (f b irq)) ->
  registration_ok w al P.
Proof.
  intros w al P f p Hr Ho Hs Ht. split; [|split].
  - intros b h m irq fn priv Hb Hh _ Hx. pose proof (handler_in _ _ _ _ Hx) as Hin. destruct (Hh _ _ _ Hin) as [Hi Hf].
    rewrite Hs by done.
    destruct (slots P b (f b) (p b) (fun x => x) (fun irq fn priv irq' m => Hr b irq fn priv irq' m Hb) h m irq Hh Hi) as [H1 H2].
    rewrite H1, H2, Hx. cbn [fst snd]. by rewrite (proj2 (Z.eqb_neq _ _)) by lia.
  - intros b h m irq Hb Hh Hc Hi Hx. rewrite Hs by done.
    destruct (slots P b (f b) (p b) (fun x => x) (fun irq fn priv irq' m => Hr b irq fn priv irq' m Hb) h m irq Hh Hi) as [H1 H2].
    rewrite H1, Hx, (Hc _ (Ht b irq Hb Hi)). done.
  - intros b h m a Hb Hh Ha. apply outside; [|done]. intros irq fn priv m0 Hi. by apply Ho.
Qed.

Ltac stos := repeat first [rewrite sto_same | rewrite sto_other by lia].
Ltac irqs := repeat match goal with H : below _ _ = true |- _ => apply below_iff in H end.

Lemma reg_table_read : forall n p base irq fn priv irq' m, 0 < p -> 0 <= irq < n ->
  reg_table n p base irq fn priv m (base + 2 * p * irq') = (if irq =? irq' then fn else m (base + 2 * p * irq')) /\
  reg_table n p base irq fn priv m (base + 2 * p * irq' + p) = (if irq =? irq' then priv else m (base + 2 * p * irq' + p)).
Proof.
  intros n p base irq fn priv irq' m Hp Hi. unfold reg_table. rewrite (proj2 (below_iff n irq)) by done.
  destruct (irq =? irq') eqn:E.
  - apply Z.eqb_eq in E as <-. split; [rewrite sto_other by lia|]; by rewrite sto_same.
  - apply Z.eqb_neq in E. assert (2 * p * irq <> 2 * p * irq') by nia.
    assert (2 * p * irq + p <> 2 * p * irq') by (destruct (Z.lt_trichotomy irq irq') as [?|[?|?]]; nia).
    assert (2 * p * irq <> 2 * p * irq' + p) by (destruct (Z.lt_trichotomy irq irq') as [?|[?|?]]; nia).
    split; rewrite !sto_other by lia; done.
Qed.
Lemma reg_table_out : forall n p base irq fn priv m a, 0 < p -> 0 <= irq < n -> ~ (base <= a < base + 2 * p * n) ->
  reg_table n p base irq fn priv m a = m a.
Proof.
  intros n p base irq fn priv m a Hp Hi Ha. unfold reg_table. rewrite (proj2 (below_iff n irq)) by done.
  rewrite !sto_other by nia. done.
Qed.

(** ARM *)
Lemma arm_ok : forall n, 0 < n <= 240 -> registration_ok 32 4 (arm n).
Proof.
  intros n Hn. apply (port_ok 32 4 (arm n) (fun b irq => fst b + 2 * 4 * irq) (fun b irq => fst b + 2 * 4 * irq + 4)).
  - intros b irq fn priv irq' m _ Hi _. cbn [ip_irq ip_reg arm] in *. irqs. by apply reg_table_read.
  - intros b irq fn priv m a _ Hi Ha. cbn [ip_irq ip_reg arm] in *. irqs. apply reg_table_out; [done..|].
    unfold in_tables in Ha. cbn [ip_size arm fst snd] in Ha. lia.
  - intros b irq m Hb Hi. unfold serve. cbn [ip_irq ip_isr ip_seen arm] in *. irqs. destruct Hb as (Hb1 & Hb2 & _). cbn [ip_size arm fst snd] in Hb2.
    replace (irq + 16 - 16) with irq by lia. unfold wrap. rewrite (Z.mod_small irq) by lia. rewrite Z.shiftl_mul_pow2 by lia.
    rewrite (Z.mod_small (irq * 2 ^ 3)) by lia. rewrite Z.mod_small by lia. unfold call_entry.
    replace (fst b + irq * 2 ^ 3) with (fst b + 2 * 4 * irq) by lia. done.
  - intros b irq _ Hi. cbn [ip_irq arm] in Hi. irqs. left. cbn [ip_size arm fst]. lia.
Qed.

(** e200 *)
Lemma e200_seen : forall n b irq, 0 <= irq < n -> n <= 1024 -> (4096 | b) -> Z.lor (Z.ldiff b 4095) (4 * irq) = b + 4 * irq.
Proof.
  intros n b irq Hi Hn [k ->]. assert (E : Z.ldiff (k * 4096) 4095 = k * 4096).
  { apply Z.bits_inj'. intros i Hi'. rewrite Z.ldiff_spec. change 4096 with (2 ^ 12). change 4095 with (Z.ones 12).
    destruct (Z.lt_ge_cases i 12).
    - rewrite Z.mul_pow2_bits_low by lia. done.
    - rewrite Z.ones_spec_high by lia. by rewrite andb_true_r. }
  rewrite E. symmetry. rewrite Z.add_nocarry_lxor, Z.lxor_lor; try done.
  all: apply Z.bits_inj'; intros i Hi'; rewrite Z.land_spec, Z.bits_0; change 4096 with (2 ^ 12); destruct (Z.lt_ge_cases i 12).
  all: try (rewrite Z.mul_pow2_bits_low by lia; done).
  all: rewrite (Z.bits_above_log2 (4 * irq)); [by rewrite andb_false_r|lia|].
  all: destruct (Z.eq_dec irq 0) as [->|]; [change (Z.log2 (4 * 0)) with 0; lia|apply Z.log2_lt_pow2; [lia|]; apply Z.lt_le_trans with (2 ^ 12); [lia|apply Z.pow_le_mono_r; lia]].
Qed.
Lemma e200_low : forall k irq, 0 <= irq < 1024 -> Z.land (k * 4096 + 4 * irq) 4094 = 4 * irq.
Proof.
  intros k irq Hi. apply Z.bits_inj'. intros i Hi'. rewrite Z.land_spec.
  replace 4094 with (2 * Z.ones 11) by done. destruct (Z.eq_dec i 0) as [->|Hn].
  - replace (4 * irq) with (2 * (2 * irq)) by lia. rewrite !Z.testbit_even_0. by rewrite andb_false_r.
  - replace i with (Z.succ (i - 1)) by lia. rewrite Z.testbit_even_succ by lia.
    replace (k * 4096 + 4 * irq) with (2 * (k * 2 ^ 11 + 2 * irq)) by lia. rewrite Z.testbit_even_succ by lia.
    replace (4 * irq) with (2 * (2 * irq)) by lia. rewrite Z.testbit_even_succ by lia.
    assert (E : Z.land (k * 2 ^ 11 + 2 * irq) (Z.ones 11) = 2 * irq).
    { rewrite Z.land_ones by lia. rewrite Z.add_comm, Z.mod_add by lia. by rewrite Z.mod_small by lia. }
    rewrite <- Z.land_spec. by rewrite E.
Qed.
Lemma e200_ok : forall n, 0 < n <= 1024 -> registration_ok 32 4096 (e200 n).
Proof.
  intros n Hn. apply (port_ok 32 4096 (e200 n) (fun b irq => fst b + 4 * irq) (fun b irq => snd b + 4 * irq)).
  - intros b irq fn priv irq' m (Hb1 & Hb2 & Hb3 & Hb4 & Hb5 & _) Hi Hi'. cbn [ip_irq ip_reg ip_size e200 fst snd] in *.
    rewrite Hi. irqs. destruct (irq =? irq') eqn:E.
    + apply Z.eqb_eq in E as <-. split; stos; done.
    + apply Z.eqb_neq in E. split; stos; done.
  - intros b irq fn priv m a _ Hi Ha. unfold in_tables in Ha. cbn [ip_irq ip_reg ip_size e200 fst snd] in *. rewrite Hi. irqs. stos. done.
  - intros b irq m (Hb1 & Hb2 & Hb3 & Hb4 & Hb5 & Hb6) Hi. unfold serve. cbn [ip_irq ip_isr ip_seen ip_size e200 fst snd] in *. irqs.
    rewrite (e200_seen n) by (done || lia). destruct (m (fst b + 4 * irq) =? 0); [done|]. f_equal.
    destruct Hb6 as [k Hk]. rewrite Hk at 1. rewrite e200_low by lia. unfold wrap. rewrite Z.mod_small by lia. f_equal. lia.
  - intros b irq _ Hi. cbn [ip_irq e200] in Hi. irqs. left. cbn [ip_size e200 fst]. lia.
Qed.

(** STM8 *)
Lemma quad : forall a, 0 <= a < 64 -> wrap 8 (2 * wrap 8 (2 * a)) = 4 * a.
Proof. intros a Ha. unfold wrap. rewrite (Z.mod_small (2 * a)) by lia. rewrite Z.mod_small by lia. lia. Qed.
Lemma stm8_ok : forall n, 0 < n <= 64 -> registration_ok 16 1 (stm8 n).
Proof.
  intros n Hn. apply (port_ok 16 1 (stm8 n) (fun b irq => fst b + 2 * 2 * irq) (fun b irq => fst b + 2 * 2 * irq + 2)).
  - intros b irq fn priv irq' m _ Hi _. cbn [ip_irq ip_reg stm8] in *. irqs. by apply reg_table_read.
  - intros b irq fn priv m a _ Hi Ha. cbn [ip_irq ip_reg stm8] in *. irqs. apply reg_table_out; [done..|].
    unfold in_tables in Ha. cbn [ip_size stm8 fst snd] in Ha. lia.
  - intros b irq m Hb Hi. unfold serve. cbn [ip_irq ip_isr ip_seen stm8] in *. irqs. destruct Hb as (Hb1 & Hb2 & _). cbn [ip_size stm8 fst snd] in Hb2.
    rewrite quad by lia. unfold wrap. rewrite Z.mod_small by lia. unfold call_entry. replace (fst b + 4 * irq) with (fst b + 2 * 2 * irq) by lia. done.
  - intros b irq _ Hi. cbn [ip_irq stm8] in Hi. irqs. left. cbn [ip_size stm8 fst]. lia.
Qed.

(** HCS08: addition byte by byte *)
Lemma bytes_add : forall b a, 0 <= b -> 0 <= a < 256 -> b + a < 2 ^ 16 ->
  256 * wrap 8 ((a + wrap 8 b) / 256 + wrap 8 (b / 256)) + wrap 8 (a + wrap 8 b) = b + a.
Proof.
  intros b a Hb Ha Hs. unfold wrap. change (2 ^ 8) with 256. change (2 ^ 16) with 65536 in Hs.
  assert (Hd : b = 256 * (b / 256) + b mod 256) by (apply Z.div_mod; lia).
  pose proof (Z.mod_pos_bound b 256 ltac:(lia)). assert (0 <= b / 256) by (apply Z.div_pos; lia).
  assert (b / 256 < 256) by (apply Z.div_lt_upper_bound; lia). rewrite (Z.mod_small (b / 256)) by lia.
  set (q := b / 256) in *. set (r := b mod 256) in *. clearbody q r. subst b.
  assert (Hc : (a + r) / 256 = 0 /\ (a + r) mod 256 = a + r \/ (a + r) / 256 = 1 /\ (a + r) mod 256 = a + r - 256 /\ 256 <= a + r).
  { destruct (Z.lt_ge_cases (a + r) 256).
    - left. rewrite Z.div_small, Z.mod_small by lia. done.
    - right. replace (a + r) with ((a + r - 256) + 1 * 256) by lia. rewrite Z.div_add, Z.mod_add by lia. rewrite Z.div_small, Z.mod_small by lia. lia. }
  destruct Hc as [[-> ->]|(-> & -> & ?)]; rewrite Z.mod_small by lia; lia.
Qed.
Lemma hcs08_ok : forall n, 0 < n <= 64 -> registration_ok 16 1 (hcs08 n n).
Proof.
  intros n Hn. apply (port_ok 16 1 (hcs08 n n) (fun b irq => fst b + 2 * 2 * irq) (fun b irq => fst b + 2 * 2 * irq + 2)).
  - intros b irq fn priv irq' m _ Hi _. cbn [ip_irq ip_reg hcs08] in *. irqs. by apply reg_table_read.
  - intros b irq fn priv m a _ Hi Ha. cbn [ip_irq ip_reg hcs08] in *. irqs. apply reg_table_out; [done..|].
    unfold in_tables in Ha. cbn [ip_size hcs08 fst snd] in Ha. lia.
  - intros b irq m Hb Hi. unfold serve. cbn [ip_irq ip_isr ip_seen hcs08] in *. irqs. destruct Hb as (Hb1 & Hb2 & _). cbn [ip_size hcs08 fst snd] in Hb2.
    rewrite quad by lia. rewrite bytes_add by lia. unfold call_entry. replace (fst b + 4 * irq) with (fst b + 2 * 2 * irq) by lia. done.
  - intros b irq _ Hi. cbn [ip_irq hcs08] in Hi. irqs. left. cbn [ip_size hcs08 fst]. lia.
Qed.

(** 8051 *)
Lemma mcs51_addr : forall n b irq m, 0 < n <= 51 -> placed 16 1 (mcs51 n) b -> 0 <= irq < n ->
  serve (mcs51 n) b irq m = Called (m (fst b + 5 * irq)) (m (fst b + 5 * irq + 2)) Epilogue.
Proof.
  intros n b irq m Hn (Hb1 & Hb2 & _) Hi. unfold serve. cbn [ip_isr ip_seen ip_size mcs51 fst snd] in *. cbv zeta.
  assert (E : wrap 8 (irq * 5) = 5 * irq) by (unfold wrap; rewrite Z.mod_small by lia; lia). rewrite E.
  assert (E2 : 256 * wrap 8 (fst b / 256 + (5 * irq + wrap 8 (fst b)) / 256) + wrap 8 (5 * irq + wrap 8 (fst b)) = fst b + 5 * irq).
  { transitivity (256 * wrap 8 ((5 * irq + wrap 8 (fst b)) / 256 + wrap 8 (fst b / 256)) + wrap 8 (5 * irq + wrap 8 (fst b))); [|apply bytes_add; lia].
    f_equal. f_equal. unfold wrap. rewrite Zplus_mod_idemp_r. f_equal. lia. }
  rewrite E2. replace (wrap 16 (fst b + 5 * irq + 2)) with (fst b + 5 * irq + 2) by (unfold wrap; rewrite Z.mod_small by lia; done). done.
Qed.
Lemma mcs51_read : forall n b irq fn priv irq' m, ip_irq (mcs51 n) irq = true -> ip_irq (mcs51 n) irq' = true ->
  ip_reg (mcs51 n) b irq fn priv m (fst b + 5 * irq') = (if irq =? irq' then fn else m (fst b + 5 * irq')) /\
  ip_reg (mcs51 n) b irq fn priv m (fst b + 5 * irq' + 2) = (if irq =? irq' then wrap 16 priv else m (fst b + 5 * irq' + 2)).
Proof.
  intros n b irq fn priv irq' m Hi Hi'. cbn [ip_irq ip_reg mcs51] in *. rewrite Hi. irqs. destruct (irq =? irq') eqn:E.
  - apply Z.eqb_eq in E as <-. split; stos; done.
  - apply Z.eqb_neq in E. split; stos; done.
Qed.
Lemma mcs51_ok : forall n, 0 < n <= 51 -> dispatch_ok 16 1 (mcs51 n) (fun priv => 0 <= priv < 2 ^ 16) /\ contained 16 1 (mcs51 n).
Proof.
  intros n Hn. split.
  - intros b h m irq fn priv Hb Hh Hp Hx. pose proof (handler_in _ _ _ _ Hx) as Hin. destruct (Hh _ _ _ Hin) as [Hi Hf]. pose proof (Hp _ _ _ Hin) as Hpr. cbv beta in Hpr.
    destruct (slots (mcs51 n) b (fun i => fst b + 5 * i) (fun i => fst b + 5 * i + 2) (wrap 16)
      (fun irq fn priv irq' m => mcs51_read n b irq fn priv irq' m) h m irq Hh Hi) as [H1 H2].
    rewrite (mcs51_addr n) by (done || by apply below_iff). rewrite H1, H2, Hx. cbn [fst snd]. unfold wrap. rewrite Z.mod_small by lia. done.
  - intros b h m a Hb Hh Ha. apply outside; [|done]. intros irq fn priv m0 Hi. unfold in_tables in Ha. cbn [ip_irq ip_reg ip_size mcs51 fst snd] in *.
    rewrite Hi. irqs. stos. done.
Qed.

(** AVR *)
Lemma avr_ok : forall n, 0 < n <= 255 -> forall b h m irq fn priv, 0 <= fst b -> fst b + 4 * n <= 2 ^ 16 -> sane (avr n) h ->
  handler h irq = Some (fn, priv) -> serve (avr n) b irq (registered (avr n) b h m) = Called fn priv Epilogue.
Proof.
  intros n Hn b h m irq fn priv Hb1 Hb2 Hh Hx. pose proof (handler_in _ _ _ _ Hx) as Hin. destruct (Hh _ _ _ Hin) as [Hi Hf].
  destruct (slots (avr n) b (fun i => fst b + 4 * (i - 1)) (fun i => fst b + 4 * (i - 1) + 2) (fun x => x)) with (h := h) (m := m) (irq := irq) as [H1 H2]; try done.
  - intros i f p i' m' H1 H2. cbn [ip_irq ip_reg avr] in *. rewrite H1. apply andb_true_iff in H1 as [A1 A2], H2 as [A3 A4].
    apply Z.leb_le in A1, A2, A3, A4. destruct (i =? i') eqn:E.
    + apply Z.eqb_eq in E as <-. split; stos; done.
    + apply Z.eqb_neq in E. split; stos; done.
  - unfold serve. cbn [ip_isr ip_seen avr]. cbn [ip_irq avr] in Hi. apply andb_true_iff in Hi as [A1 A2]. apply Z.leb_le in A1, A2.
    assert (E : wrap 16 (fst b + 4 * (irq - 1)) = fst b + 4 * (irq - 1)) by (unfold wrap; rewrite Z.mod_small by lia; done).
    rewrite E, H1, H2, Hx. done.
Qed.
Lemma avr_in : forall n, 0 < n <= 255 -> forall b h m a, sane (avr n) h -> (forall irq fn priv, (irq, fn, priv) ∈ h -> 4 * irq <= n) -> ~ in_tables (avr n) b a ->
  registered (avr n) b h m a = m a.
Proof.
  intros n Hn b h m a Hs Hq Ha. revert m. induction h as [|[[i fn] priv] h IH]; intros m; [done|].
  pose proof (Hq i fn priv ltac:(constructor)) as Hq0. apply sane_cons in Hs as (Hd & Hf & Hs). unfold registered. cbn [fold_left fst snd].
  unfold registered in IH. rewrite IH; [|done|intros j f p Hj; apply (Hq j f p); by constructor].
  unfold in_tables in Ha. cbn [ip_irq ip_reg ip_size avr fst snd] in *. rewrite Hd. apply andb_true_iff in Hd as [A1 A2]. apply Z.leb_le in A1, A2. stos. done.
Qed.

(** RISC-V *)
Lemma riscv_never : forall n first irqs b h m irq fn priv, serve (riscv n first irqs) b irq (registered (riscv n first irqs) b h m) <> Called fn priv Epilogue.
Proof. intros n first irqs b h m irq fn priv. unfold serve. cbn [ip_isr ip_seen riscv]. unfold call_entry. case_match; done. Qed.
Lemma shift_small : forall x k, 0 <= x -> 0 <= k -> x * 2 ^ k < 2 ^ 32 -> wrap 32 (Z.shiftl (wrap 32 x) k) = x * 2 ^ k.
Proof.
  intros x k Hx Hk Hs. assert (0 < 2 ^ k) by (apply Z.pow_pos_nonneg; lia). unfold wrap. rewrite (Z.mod_small x) by nia.
  rewrite Z.shiftl_mul_pow2 by lia. apply Z.mod_small. nia.
Qed.
Lemma riscv_half : forall n first irqs b h m k, 0 < n <= 1024 -> 0 <= k < n -> (forall i, irqs i = true -> 0 <= i < n) -> 0 <= fst b -> fst b + 8 * n <= 2 ^ 32 -> sane (riscv n first irqs) h ->
  irqs k = true -> 2 * k + 16 < 4096 ->
  serve (riscv n first irqs) b (16 - first + 2 * k) (registered (riscv n first irqs) b h m) =
  match handler h k with Some x => Called (fst x) (snd x) TaskLink | None => call_entry (fst b + 8 * k) 4 TaskLink m end.
Proof.
  intros n first irqs b h m k Hn Hk Hq Hb1 Hb2 Hs Hi Hm.
  destruct (slots (riscv n first irqs) b (fun i => fst b + 2 * 4 * i) (fun i => fst b + 2 * 4 * i + 4) (fun x => x)) with (h := h) (m := m) (irq := k) as [H1 H2]; try done.
  { intros i f p i' m' A1 A2. cbn [ip_irq ip_reg riscv] in *. apply reg_table_read; [lia|auto]. }
  unfold serve. cbn [ip_isr ip_seen riscv]. replace (16 - first + 2 * k + first) with (16 + 2 * k) by lia.
  change 4095 with (Z.ones 12). rewrite Z.land_ones by lia. rewrite (Z.mod_small (16 + 2 * k)) by lia. replace (16 + 2 * k - 16) with (2 * k) by lia.
  rewrite shift_small by lia. unfold wrap. rewrite Z.mod_small by lia. unfold call_entry. replace (fst b + 2 * k * 2 ^ 2) with (fst b + 2 * 4 * k) by lia.
  rewrite H1, H2. destruct (handler h k) as [[fn priv]|] eqn:E; cbn [fst snd].
  - apply handler_in in E. destruct (Hs _ _ _ E) as [_ Hf]. by rewrite (proj2 (Z.eqb_neq _ _)) by lia.
  - replace (fst b + 2 * 4 * k) with (fst b + 8 * k) by lia. done.
Qed.

(** MIPS *)
Lemma pic32_first : forall n, 0 < n <= 256 -> forall b h m irq fn priv, placed 32 1 (pic32mz n) b -> sane (pic32mz n) h ->
  handler h irq = Some (fn, priv) -> serve (pic32mz n) b irq (registered (pic32mz n) b h m) = Called fn priv Lookup.
Proof.
  intros n Hn b h m irq fn priv (Hb1 & Hb2 & _) Hh Hx. pose proof (handler_in _ _ _ _ Hx) as Hin. destruct (Hh _ _ _ Hin) as [Hi Hf].
  destruct (slots (pic32mz n) b (fun i => fst b + 2 * 4 * i) (fun i => fst b + 2 * 4 * i + 4) (fun x => x)) with (h := h) (m := m) (irq := irq) as [H1 H2]; try done.
  { intros i f p i' m' A1 A2. cbn [ip_irq ip_reg pic32mz] in *. irqs. by apply reg_table_read. }
  unfold serve. cbn [ip_irq ip_isr ip_seen ip_size pic32mz fst snd] in *. irqs. change 255 with (Z.ones 8). rewrite Z.land_ones by lia. rewrite (Z.mod_small irq) by lia.
  rewrite Z.shiftl_mul_pow2 by lia. unfold wrap. rewrite (Z.mod_small (irq * 2 ^ 3)) by lia. rewrite Z.mod_small by lia. unfold call_entry.
  replace (fst b + irq * 2 ^ 3) with (fst b + 2 * 4 * irq) by lia. rewrite H1, H2, Hx. cbn [fst snd]. by rewrite (proj2 (Z.eqb_neq _ _)) by lia.
Qed.
Lemma pic32_never : forall n b h m irq fn priv, serve (pic32mz n) b irq (registered (pic32mz n) b h m) <> Called fn priv Epilogue.
Proof. intros n b h m irq fn priv. unfold serve. cbn [ip_isr ip_seen pic32mz]. unfold call_entry. case_match; done. Qed.

(** c28x *)
Lemma pie_ctrl : forall irq, 0 <= irq < 256 -> Z.land (Z.lor (3328 + 2 * irq) 1 - 3328) 510 = 2 * irq.
Proof.
  intros irq Hi. assert (E : Z.lor (3328 + 2 * irq) 1 = 3328 + 2 * irq + 1).
  { replace (3328 + 2 * irq) with (2 * (1664 + irq)) by lia. generalize (1664 + irq) as x. intros x. apply Z.bits_inj'. intros i Hi'. rewrite Z.lor_spec.
    destruct (Z.eq_dec i 0) as [->|Hn]; [by rewrite Z.testbit_odd_0, orb_true_r|]. replace i with (Z.succ (i - 1)) by lia.
    rewrite Z.testbit_even_succ, Z.testbit_odd_succ by lia. change 1 with (2 * 0 + 1) at 2. rewrite Z.testbit_odd_succ, Z.bits_0 by lia. apply orb_false_r. }
  rewrite E. replace (3328 + 2 * irq + 1 - 3328) with (2 * irq + 1) by lia. apply Z.bits_inj'. intros i Hi'. rewrite Z.land_spec.
  replace 510 with (2 * Z.ones 8) by done. destruct (Z.eq_dec i 0) as [->|Hn].
  - rewrite !Z.testbit_even_0. by rewrite andb_false_r.
  - replace i with (Z.succ (i - 1)) by lia. rewrite Z.testbit_odd_succ, !Z.testbit_even_succ by lia.
    rewrite <- Z.land_spec, Z.land_ones by lia. by rewrite Z.mod_small by lia.
Qed.
Lemma c28x_next : forall b h m irq, sane c28x h -> 32 <= irq <= 191 ->
  serve c28x b irq (registered c28x b h m) =
  match handler h (irq + 32) with Some x => Called (fst x) (snd x) Epilogue | None => call_entry (fst b + 4 * irq) 2 Epilogue m end.
Proof.
  intros b h m irq Hs Hi.
  destruct (slots c28x b (fun i => fst b + 4 * (i - 32)) (fun i => fst b + 4 * (i - 32) + 2) (fun x => x)) with (h := h) (m := m) (irq := irq + 32) as [H1 H2]; try done.
  { intros i f p i' m' A1 A2. cbn [ip_irq ip_reg c28x] in *. rewrite A1. apply andb_true_iff in A1 as [B1 B2], A2 as [B3 B4]. apply Z.leb_le in B1, B2, B3, B4.
    destruct (i =? i') eqn:E.
    + apply Z.eqb_eq in E as <-. split; stos; done.
    + apply Z.eqb_neq in E. split; stos; done. }
  { cbn [ip_irq c28x]. apply andb_true_iff; split; apply Z.leb_le; lia. }
  replace (irq + 32 - 32) with irq in * by lia. unfold serve. cbn [ip_isr ip_seen c28x]. cbv zeta. rewrite pie_ctrl by lia. rewrite Z.shiftl_mul_pow2 by lia.
  replace (fst b + 2 * irq * 2 ^ 1) with (fst b + 4 * irq) by lia. unfold call_entry. rewrite H1, H2.
  destruct (handler h (irq + 32)) as [[fn priv]|] eqn:E; cbn [fst snd]; [|done].
  apply handler_in in E. destruct (Hs _ _ _ E) as [_ Hf]. by rewrite (proj2 (Z.eqb_neq _ _)) by lia.
Qed.
Lemma c28x_in : contained 32 1 c28x.
Proof.
  intros b h m a Hb Hh Ha. apply outside; [|done]. intros irq fn priv m0 Hi. unfold in_tables in Ha. cbn [ip_irq ip_reg ip_size c28x fst snd] in *.
  rewrite Hi. apply andb_true_iff in Hi as [B1 B2]. apply Z.leb_le in B1, B2. stos. done.
Qed.
