(** DmaProofs.v - lemmas for C137. *)
From Verif Require Import Base MuxModel MuxProofs DmaModel DmaSpec.
Ltac Zify.zify_post_hook ::= Z.to_euclidean_division_equations.

Lemma dwr_eq r v s : dwr r v s r = v.
Proof. unfold dwr. rewrite decide_True by reflexivity. reflexivity. Qed.
Lemma dwr_ne r v s r' : r' <> r -> dwr r v s r' = s r'.
Proof. intros. unfold dwr. rewrite decide_False by assumption. reflexivity. Qed.
Ltac dregs := unfold dwf; repeat match goal with
  | |- context [dwr ?r ?v ?s ?r'] => first [rewrite (dwr_eq r v s) | rewrite (dwr_ne r v s r') by congruence]
  end.
Lemma on_cases i : on i = 0 \/ on i = 1.
Proof. unfold on. destruct (i =? 0); auto. Qed.

Lemma accesses_units n w ss ds : forall src dst k,
  accesses_from n w (src + Z.of_nat k * ss) ss (dst + Z.of_nat k * ds) ds = map (fun i => (src + Z.of_nat i * ss, dst + Z.of_nat i * ds, w)) (seq k n).
Proof.
  induction n as [|n IH]; intros src dst k; [reflexivity|]. cbn [accesses_from seq map]. f_equal. rewrite <- IH. f_equal; lia.
Qed.
Definition prog_of (x : xfer) : prog := mkProg (size x) (byte_count x / size x) (saddr x) (size x * on (incr_read x)) (daddr x) (size x * on (incr_write x)).
Lemma prog_of_units x : accesses (prog_of x) = asked_units x.
Proof.
  unfold accesses, asked_units, prog_of. cbn [p_width p_count p_src p_sstep p_dst p_dstep].
  pose proof (accesses_units (Z.to_nat (byte_count x / size x)) (size x) (size x * on (incr_read x)) (size x * on (incr_write x)) (saddr x) (daddr x) 0) as A.
  cbn [Z.of_nat] in A. rewrite !Z.mul_0_l, !Z.add_0_r in A. rewrite A. apply map_ext. intros i. unfold unit_at, on.
  destruct (incr_read x =? 0), (incr_write x =? 0); (apply f_equal2; [apply f_equal2; lia|reflexivity]).
Qed.

Lemma unit_cases d n : unit_ok d n = true -> n = 1 \/ n = 2 \/ n = 4 /\ d <> DGd \/ n = 8 /\ d = DEdma.
Proof. destruct d; cbn [unit_ok]; rewrite ?orb_true_iff, ?Z.eqb_eq; intuition congruence. Qed.

(** A transfer that is possible is accepted, and what it leaves in the registers. *)
Lemma gd_prog base x s s' : possible DGd x -> gd_setup base x s = DOk s' -> programmed DGd s' = Some (prog_of x) /\ mf (s' CTL) 14 1 = 0 /\ s' CNT = byte_count x / size x.
Proof.
  intros [U W S C [A1 A2] [B1 B2] I] H. unfold gd_setup in H. cbn [counted count_max] in C.
  replace (0 <? byte_count x) with true in H by (symmetry; apply Z.ltb_lt; lia). rewrite I in H. cbn [negb] in H.
  destruct x as [sa da ir iw sz bc]. cbn [saddr daddr incr_read incr_write size byte_count] in *.
  assert (N : (bc / sz) mod 2 ^ 16 = bc / sz) by (destruct (unit_cases _ _ U) as [->|[->|[[-> _]|[-> _]]]]; apply Z.mod_small; lia).
  assert (SA : u32 sa = sa) by (apply Z.mod_small; lia). assert (DA : u32 da = da) by (apply Z.mod_small; lia). rewrite N, SA, DA in H.
  unfold prog_of. cbn [saddr daddr incr_read incr_write size byte_count].
  destruct (on_cases ir) as [Oi|Oi], (on_cases iw) as [Ow|Ow]; rewrite ?Oi, ?Ow in *.
  all: destruct (unit_cases _ _ U) as [->|[->|[[-> K]|[-> K]]]]; try congruence; cbn [Z.ltb Z.leb Z.compare Pos.compare Pos.compare_cont andb negb] in H; cbv zeta in H.
  all: destruct (base <=? sa); injection H as <-; cbn [programmed]; dregs; repeat split.
Qed.
Lemma stm_prog base x s s' : possible DStm x -> stm_setup base x s = DOk s' ->
  programmed DStm s' = Some (prog_of x) /\ mf (s' SCR) 6 2 < 2 /\ s' NDTR = byte_count x / size x /\ mf (s' SCR) 8 1 = 0.
Proof.
  intros [U W S C [A1 A2] [B1 B2] I] H. unfold stm_setup in H. cbn [counted count_max] in C. rewrite I in H. cbn [negb] in H.
  destruct x as [sa da ir iw sz bc]. cbn [saddr daddr incr_read incr_write size byte_count] in *.
  assert (N : (bc / sz) mod 2 ^ 16 = bc / sz) by (destruct (unit_cases _ _ U) as [->|[->|[[-> _]|[-> _]]]]; apply Z.mod_small; lia).
  assert (SA : u32 sa = sa) by (apply Z.mod_small; lia). assert (DA : u32 da = da) by (apply Z.mod_small; lia). rewrite N, SA, DA in H.
  unfold prog_of. cbn [saddr daddr incr_read incr_write size byte_count].
  destruct (on_cases ir) as [Oi|Oi], (on_cases iw) as [Ow|Ow]; rewrite ?Oi, ?Ow in *.
  all: destruct (unit_cases _ _ U) as [->|[->|[[-> K]|[-> K]]]]; try congruence; cbn [Z.eqb] in H; cbv zeta in H.
  all: destruct (base <=? sa); injection H as <-; cbn [programmed]; dregs; repeat split.
Qed.
Lemma e5_prog x s s' : possible DE5 x -> e5_setup x s = DOk s' ->
  programmed DE5 s' = Some (prog_of x) /\ s' CHFLAG = 0 /\ mf (s' CHCTRLA) 20 2 = mf (s CHCTRLA) 20 2.
Proof.
  intros [U W S C [A1 A2] [B1 B2] I] H. unfold e5_setup in H. cbn [counted count_max] in C. rewrite I in H. cbn [negb] in H.
  destruct x as [sa da ir iw sz bc]. cbn [saddr daddr incr_read incr_write size byte_count] in *.
  assert (N : (bc / sz) mod 2 ^ 16 = bc / sz) by (destruct (unit_cases _ _ U) as [->|[->|[[-> _]|[-> _]]]]; apply Z.mod_small; lia).
  assert (Q : sz * (bc / sz) = bc) by (destruct (unit_cases _ _ U) as [->|[->|[[-> _]|[-> _]]]]; lia).
  assert (SA : u32 sa = sa) by (apply Z.mod_small; lia). assert (DA : u32 da = da) by (apply Z.mod_small; lia).
  assert (SB : u32 (sa + bc) = sa + bc) by (apply Z.mod_small; lia). assert (DB : u32 (da + bc) = da + bc) by (apply Z.mod_small; lia).
  unfold prog_of. cbn [saddr daddr incr_read incr_write size byte_count].
  assert (Z0 : 0 < sz <= 4) by (destruct (unit_cases _ _ U) as [->|[->|[[-> _]|[-> K]]]]; try lia; congruence).
  replace ((0 <? sz) && (sz <=? 4)) with true in H by (symmetry; apply andb_true_iff; split; [apply Z.ltb_lt|apply Z.leb_le]; lia). cbn [negb] in H. cbv zeta in H.
  injection H as <-. cbn [programmed]. dregs. fields.
  split; [|split; [reflexivity|reflexivity]].
  rewrite N. unfold on. destruct (ir =? 0), (iw =? 0); rewrite ?SA, ?DA, ?SB, ?DB.
  all: destruct (unit_cases _ _ U) as [E|[E|[[E K]|[E K]]]]; try congruence; subst sz;
    match goal with |- context [width_of ?k] => let v := eval vm_compute in (width_of k) in change (width_of k) with v end.
  all: repeat match goal with |- context [mf (put ?a ?b ?c ?e) ?f ?g] => let v := eval vm_compute in (mf (put a b c e) f g) in change (mf (put a b c e) f g) with v end.
  all: cbn [Z.eqb orb]; f_equal; f_equal; try (repeat match goal with |- context [mf ?a ?b ?c] => let v := eval vm_compute in (mf a b c) in change (mf a b c) with v end; lia).
Qed.
Lemma rp_prog (f : bool) x s s' : possible DRp x -> (if f then rp_xfer x s else rp_setup x s) = DOk s' ->
  programmed DRp s' = Some (prog_of x) /\ mf (s' CTRLT) 15 6 = (if f then 63 else mf (s CTRLT) 15 6).
Proof.
  intros [U W S C [A1 A2] [B1 B2] I] H. unfold rp_xfer, rp_setup in H. cbn [counted count_max] in C. rewrite I in H. cbn [negb] in H.
  destruct x as [sa da ir iw sz bc]. cbn [saddr daddr incr_read incr_write size byte_count] in *.
  assert (N : u32 (bc / sz) = bc / sz) by (unfold u32; destruct (unit_cases _ _ U) as [->|[->|[[-> _]|[-> _]]]]; apply Z.mod_small; lia).
  assert (SA : u32 sa = sa) by (apply Z.mod_small; lia). assert (DA : u32 da = da) by (apply Z.mod_small; lia). rewrite N, SA, DA in H.
  unfold prog_of. cbn [saddr daddr incr_read incr_write size byte_count].
  assert (0 <= on ir < 2 /\ 0 <= on iw < 2) by (destruct (on_cases ir), (on_cases iw); lia).
  destruct (unit_cases _ _ U) as [->|[->|[[-> K]|[-> K]]]]; try congruence; cbn [Z.ltb Z.eqb Z.compare Pos.compare Pos.compare_cont Pos.eqb negb] in H; cbv zeta in H.
  all: destruct f; injection H as <-; cbn [programmed]; dregs; fields; split; reflexivity.
Qed.
Lemma edma_prog (f : bool) x s s' : possible DEdma x -> (if f then edma_xfer x s else edma_setup x s) = DOk s' ->
  programmed DEdma s' = Some (prog_of x) /\ (if f then s' START = 1 /\ mf (s CSR) 6 1 <> 1 else s' ERQ = 1).
Proof.
  intros [U W S C [A1 A2] [B1 B2] I] H. cbn [counted count_max] in C.
  destruct x as [sa da ir iw sz bc]. cbn [saddr daddr incr_read incr_write size byte_count] in *.
  unfold edma_xfer, edma_setup, edma_tcd in H. cbn [saddr daddr incr_read incr_write size byte_count] in H.
  assert (N : u32 bc mod 2 ^ 30 = bc) by (unfold u32; rewrite (Z.mod_small bc) by lia; apply Z.mod_small; lia).
  assert (SA : u32 sa = sa) by (apply Z.mod_small; lia). assert (DA : u32 da = da) by (apply Z.mod_small; lia). rewrite SA, DA in H.
  unfold prog_of, on. cbn [saddr daddr incr_read incr_write size byte_count].
  destruct f; [destruct (mf (s CSR) 6 1 =? 1) eqn:E; [discriminate H|apply Z.eqb_neq in E]|].
  all: destruct (unit_cases _ _ U) as [->|[->|[[-> K]|[-> K]]]];
    match type of H with context [edma_size ?k] => let v := eval vm_compute in (edma_size k) in change (edma_size k) with v in H end; cbv iota beta zeta in H;
    injection H as <-; cbn [programmed]; dregs; rewrite N.
  all: repeat match goal with |- context [mf (put ?a ?b ?c ?e) ?f ?g] => let v := eval vm_compute in (mf (put a b c e) f g) in change (mf (put a b c e) f g) with v end.
  all: destruct (ir =? 0), (iw =? 0); auto.
Qed.

Lemma setup_prog d base x s s' : possible d x -> dma_setup d base x s = DOk s' -> programmed d s' = Some (prog_of x).
Proof.
  intros P H. destruct d; cbn [dma_setup] in H.
  - apply (gd_prog base x s s' P H). - apply (stm_prog base x s s' P H). - apply (e5_prog x s s' P H). - apply (rp_prog false x s s' P H). - apply (edma_prog false x s s' P H).
Qed.
Lemma xfer_prog d base x s s' : possible d x -> dma_xfer d base x s = DOk s' -> programmed d s' = Some (prog_of x).
Proof.
  intros P H. destruct d; cbn [dma_xfer] in H.
  - apply (gd_prog base x s s' P H). - apply (stm_prog base x s s' P H). - apply (e5_prog x s s' P H). - apply (rp_prog true x s s' P H). - apply (edma_prog true x s s' P H).
Qed.
Lemma setup_accepts d base x s : possible d x -> exists s', dma_setup d base x s = DOk s'.
Proof.
  intros [U W S C _ _ I]. destruct d; cbn [dma_setup]; unfold gd_setup, stm_setup, e5_setup, rp_setup, edma_setup, edma_tcd; rewrite ?I; cbn [negb];
    replace (0 <? byte_count x) with true by (symmetry; apply Z.ltb_lt; lia);
    destruct (unit_cases _ _ U) as [->|[->|[[-> K]|[-> K]]]]; try congruence; cbv zeta.
  all: try (match goal with |- context [edma_size ?k] => let v := eval vm_compute in (edma_size k) in change (edma_size k) with v end; cbv iota beta).
  all: cbn [Z.ltb Z.leb Z.eqb Z.compare Pos.compare Pos.compare_cont Pos.eqb negb andb]; try destruct (base <=? saddr x); eexists; reflexivity.
Qed.
Lemma xfer_accepts d base x s : possible d x -> d = DEdma -> mf (s CSR) 6 1 = 0 -> exists s', dma_xfer d base x s = DOk s'.
Proof.
  intros P -> A. destruct (setup_accepts DEdma base x (dwf CSR 7 1 0 s) P) as [s1 H]. cbn [dma_setup dma_xfer] in *. unfold edma_setup in H. unfold edma_xfer. rewrite A. cbn [Z.eqb].
  destruct (edma_tcd x (dwf CSR 7 1 0 s)) eqn:E; try discriminate H. eexists. reflexivity.
Qed.
Lemma xfer_accepts' d base x s : possible d x -> d <> DEdma -> exists s', dma_xfer d base x s = DOk s'.
Proof.
  intros P N. destruct (setup_accepts d base x s P) as [s1 H]. destruct d; cbn [dma_setup dma_xfer] in *; try congruence; try (exists s1; exact H).
  unfold rp_xfer. rewrite H. eexists. reflexivity.
Qed.

(** Bytes. *)
Lemma copies_prefix x m n : incr_read x <> 0 -> incr_write x <> 0 -> 0 < size x -> Z.of_nat n * size x <= byte_count x -> apart x -> forall a,
  copies (map (unit_at x) (seq 0 n)) m a = if (daddr x <=? a) && (a <? daddr x + Z.of_nat n * size x) then m (saddr x + (a - daddr x)) else m a.
Proof.
  intros R W Z0. apply Z.eqb_neq in R. apply Z.eqb_neq in W. induction n as [|n IH]; intros N A a.
  - change (copies (map (unit_at x) (seq 0 0)) m a) with (m a). replace ((daddr x <=? a) && (a <? daddr x + Z.of_nat 0 * size x)) with false; [reflexivity|]. symmetry. apply andb_false_iff. rewrite Z.leb_gt, Z.ltb_ge. lia.
  - rewrite seq_S, map_app. unfold copies in *. rewrite fold_left_app. cbn [map fold_left Nat.add].
    assert (Un : unit_at x n = (saddr x + Z.of_nat n * size x, daddr x + Z.of_nat n * size x, size x)) by (unfold unit_at; rewrite R, W; reflexivity). rewrite Un. cbn [copy1].
    assert (E : Z.of_nat (S n) * size x = Z.of_nat n * size x + size x) by (rewrite Nat2Z.inj_succ, Z.mul_succ_l; reflexivity). rewrite E in *.
    assert (N' : Z.of_nat n * size x <= byte_count x) by lia. specialize (IH N' A). rewrite !IH. unfold apart in A.
    assert (0 <= Z.of_nat n * size x) by (apply Z.mul_nonneg_nonneg; lia). set (k := Z.of_nat n * size x) in *.
    repeat match goal with |- context [?p <=? ?q] => destruct (Z.leb_spec p q) | |- context [?p <? ?q] => destruct (Z.ltb_spec p q) end; cbn [andb]; try reflexivity; try (exfalso; lia); f_equal; lia.
Qed.
Lemma units_copy d x m : possible d x -> incr_read x <> 0 -> incr_write x <> 0 -> apart x -> forall a, copies (asked_units x) m a = memory_copied x m a.
Proof.
  intros [U W S C _ _ I] R Wr A a. unfold asked_units, memory_copied.
  assert (Z0 : 0 < size x) by (destruct (unit_cases _ _ U) as [->|[->|[[-> K]|[-> K]]]]; lia).
  assert (Q : size x * (byte_count x / size x) = byte_count x) by (pose proof (Z.div_mod (byte_count x) (size x)); lia).
  assert (0 <= byte_count x / size x) by (apply Z.div_pos; lia).
  assert (E : Z.of_nat (Z.to_nat (byte_count x / size x)) * size x = byte_count x) by (rewrite Z2Nat.id by assumption; lia).
  rewrite copies_prefix by (auto; lia). rewrite E. reflexivity.
Qed.

(** Progress. *)
Lemma moved_done d s p k : programmed d s = Some p -> (d = DGd -> s CNT = p_count p) -> 0 <= k <= p_count p -> dma_done d (moved d k s) = (k =? p_count p).
Proof.
  intros P G K. unfold moved. rewrite P. destruct d; cbn [dma_done]; dregs.
  - rewrite (G eq_refl). destruct (Z.eqb_spec k (p_count p)), (Z.eqb_spec (p_count p - k) 0); try reflexivity; lia.
  - rewrite mf_put_same by (destruct (k <? p_count p); lia). destruct (Z.eqb_spec k (p_count p)), (Z.ltb_spec k (p_count p)); try reflexivity; lia.
  - rewrite mf_put_same by (destruct (k <? p_count p); lia). destruct (Z.eqb_spec k (p_count p)), (Z.ltb_spec k (p_count p)); try reflexivity; lia.
  - rewrite mf_put_same by (destruct (k <? p_count p); lia). destruct (Z.eqb_spec k (p_count p)), (Z.ltb_spec k (p_count p)); try reflexivity; lia.
  - rewrite mf_put_same by (destruct (k <? p_count p); lia). destruct (Z.eqb_spec k (p_count p)), (Z.ltb_spec k (p_count p)); try reflexivity; lia.
Qed.

(** RP2040's two triggers. *)
Lemma rr_move_log p : forall k r, (k <= rr_left r)%nat -> rr_move p k r =
  mkRun (rr_src r + Z.of_nat k * p_sstep p) (rr_dst r + Z.of_nat k * p_dstep p) (rr_left r - k) (rr_log r ++ accesses_from k (p_width p) (rr_src r) (p_sstep p) (rr_dst r) (p_dstep p)).
Proof.
  induction k as [|k IH]; intros r K.
  - destruct r as [a b l g]. cbn [rr_move rr_src rr_dst rr_left rr_log accesses_from]. rewrite app_nil_r, Nat.sub_0_r. f_equal; lia.
  - destruct r as [a b l g]. cbn [rr_move rr_left] in *. destruct l as [|l]; [lia|]. rewrite IH by (cbn [rr_left]; lia).
    cbn [rr_src rr_dst rr_left rr_log accesses_from]. rewrite <- app_assoc. cbn [app]. f_equal; lia.
Qed.
Lemma accesses_app w ss ds a b : forall src dst, accesses_from (a + b) w src ss dst ds =
  accesses_from a w src ss dst ds ++ accesses_from b w (src + Z.of_nat a * ss) ss (dst + Z.of_nat a * ds) ds.
Proof.
  induction a as [|a IH]; intros src dst.
  - cbn [Nat.add accesses_from app]. f_equal; lia.
  - cbn [Nat.add accesses_from app]. rewrite IH. f_equal. f_equal. f_equal; lia.
Qed.
Lemma rr_idle p a b l : rr_trigger p (mkRun a b 0 l) = mkRun a b (Z.to_nat (p_count p)) l.
Proof. reflexivity. Qed.
Lemma rr_busy p r : (0 < rr_left r)%nat -> rr_trigger p r = r.
Proof. destruct r as [a b [|n] l]; cbn [rr_left]; intros; [lia|reflexivity]. Qed.
Lemma rr_once p k : (k < Z.to_nat (p_count p))%nat -> rr_log (rr_xfer p k) = accesses p.
Proof.
  intros K. unfold rr_xfer. rewrite rr_idle. rewrite (rr_move_log p k) by (cbn [rr_left]; lia). cbn [rr_left rr_src rr_dst rr_log].
  rewrite rr_busy by (cbn [rr_left]; lia). cbv zeta. cbn [rr_left].
  rewrite rr_move_log by (cbn [rr_left]; lia). cbn [rr_left rr_src rr_dst rr_log app]. rewrite <- accesses_app. unfold accesses. f_equal. lia.
Qed.
Lemma rr_twice p : let n := Z.to_nat (p_count p) in
  rr_log (rr_xfer p n) = accesses p ++ accesses_from n (p_width p) (p_src p + Z.of_nat n * p_sstep p) (p_sstep p) (p_dst p + Z.of_nat n * p_dstep p) (p_dstep p).
Proof.
  intros n. unfold rr_xfer. rewrite rr_idle. fold n. rewrite (rr_move_log p n) by (cbn [rr_left]; lia). cbn [rr_left rr_src rr_dst rr_log].
  rewrite Nat.sub_diag, rr_idle. cbv zeta. fold n. cbn [rr_left].
  rewrite rr_move_log by (cbn [rr_left]; lia). cbn [rr_left rr_src rr_dst rr_log app]. reflexivity.
Qed.
