(** FlashProofs2.v - proofs about the external flash drivers: write. *)
From Verif Require Import Base FlashModel FlashSpec FlashProofs.
From Coq Require Import ZifyBool ZifyNat.

Lemma addr24_bytes off size : 0 <= off < 16777216 -> off < size ->
  addr24 (off / 65536 mod 256) (off / 256 mod 256) (off mod 256) mod size = off.
Proof.
  intros Hoff Hsz. assert (E1 : off / 65536 = off / 256 / 256) by (rewrite Z.div_div by lia; done).
  assert (E2 : 0 <= off / 65536 < 256) by (split; [apply Z.div_pos; lia|apply Z.div_lt_upper_bound; lia]).
  unfold addr24. rewrite (Z.mod_small (off / 65536)) by lia.
  pose proof (Z_div_mod_eq_full off 256). pose proof (Z_div_mod_eq_full (off / 256) 256).
  replace (off / 65536 * 65536 + off / 256 mod 256 * 256 + off mod 256) with off by lia. apply Z.mod_small. lia.
Qed.

Section write.
Context (f0 : fx) (off : Z) (n : nat) (data : list Z).
Context (Hid : flash_idle f0) (Hpp : length (f_pp f0) = 260%nat) (Hn : (0 < n <= 256)%nat) (Hd : (n <= length data)%nat).
Notation c0 := (f_chip f0).
Definition page : list Z := take n data ++ drop (4 + n) (f_pp f0).
Notation pc := (2 :: addr_bytes off ++ page).
Definition cW : chip := chip_exec (with_wel true c0) pc.
Definition Iwr (k b : nat) (f : fx) : Prop :=
  exists (l : nat) (c : chip) (cur : list Z) (lg : list (list Z)) (sc : list xo) (pp : list Z),
  f = set_seq k (tr l c cur lg sc (set_pp pp f0)) /\ length pp = 260%nat /\
  match k with
  | 0%nat => pp = f_pp f0 /\ inphase [6] 0 f /\ c = c0 /\ lg = f_log f0 /\ b = 263%nat
  | 1%nat => pp = f_pp f0 /\ l = 0%nat /\ cur = [] /\ c = with_wel true c0 /\ lg = f_log f0 ++ [[6]] /\ b = 262%nat
  | 2%nat => exists i, drop i pp = drop i pc /\ inphase pc i f /\ c = with_wel true c0 /\ lg = f_log f0 ++ [[6]] /\ b = (262 - i)%nat
  | 3%nat => exists i p, inphase [5; 0] i f /\ ready_of cW c /\ lg = f_log f0 ++ [[6]; pc] ++ p /\ Forall (fun x => x = [5; 0]) p /\ b = (2 - i)%nat
  | _ => exists p, l = 0%nat /\ cur = [] /\ ready_of cW c /\ c_busy c = false /\ lg = f_log f0 ++ [[6]; pc] ++ p /\ polls p
  end.

Lemma page_len : length page = 256%nat.
Proof. unfold page. rewrite app_length, take_length, drop_length. lia. Qed.
Lemma pc_len : length pc = 260%nat.
Proof. cbn [length]. rewrite app_length, page_len. done. Qed.

Definition write_steps (k : nat) : option (fx -> res (fx * Z)) :=
  match k with
  | O => Some (run_single 6)
  | S O => Some (fun f => Ok (set_pp (2 :: addr_bytes off ++ take n data ++ drop (4 + n) (f_pp f)) f, Z.of_nat n))
  | S (S O) => Some (fun f => let! (f, b, r) := run_cmd f (f_pp f) in Ok (set_pp b f, r))
  | S (S (S O)) => Some run_busy
  | _ => None
  end.
Lemma write_ok k : (k < 4)%nat -> exists step, write_steps k = Some step /\ step_ok Iwr k step.
Proof.
  assert (Hb0 : c_busy c0 = false) by apply Hid.
  intros Hk. destruct k as [|[|[|[|k]]]]; [| | | |lia]; (eexists; split; [reflexivity|]); intros b f (l & c & cur & lg & sc & pp & Ef & Hp & H) Hs Ho.
  - destruct H as (-> & P & -> & -> & ->).
    destruct (run_cmd_spec f [6] [6] 0 P eq_refl eq_refl Ho) as (l' & c' & cur' & lg' & sc' & buf & r & g & E & U & L & D).
    unfold run_single. rewrite E. cbn [rbind].
    destruct D as [(-> & i' & G & P' & El & Er & _)|(-> & -> & -> & -> & -> & c & Er & -> & Eb & Ha)].
    + exists (tr l' c' cur' lg' sc' f), (- EAGAIN), 263%nat, g. split; [done|]. split; [done|]. split; [done|].
      assert (i' = 0)%nat as -> by (destruct P' as (P' & _); cbn in P'; lia). split; [lia|]. left. split; [done|]. split; [|done].
      exists l', c', cur', lg', sc', (f_pp f0). split; [by rewrite Ef|]. split; [done|]. split; [done|]. split; [done|]. split; [|split; [|done]]; [|by rewrite El, Ef].
      apply ready_idle; [done|]. by rewrite Ef in Er.
    + exists (tr 0 (chip_exec c [6]) [] (f_log f ++ [[6]]) sc' f), 0, 262%nat, 1%nat. split; [done|]. split; [done|]. split; [done|]. split; [lia|].
      right. split; [done|]. exists 0%nat, (chip_exec c [6]), [], (f_log f ++ [[6]]), sc', (f_pp f0). split; [by rewrite Ef|]. split; [done|].
      split; [done|]. split; [done|]. split; [done|].
      rewrite Ef in Er |- *. cbn in Er. rewrite (ready_idle _ _ Hb0 Er), exec_wren by done. done.
  - destruct H as (-> & -> & -> & -> & -> & ->).
    eexists _, (Z.of_nat n), 262%nat, 0%nat. split; [reflexivity|]. split; [by rewrite Ef|]. split; [apply used_refl|]. split; [lia|]. right. split; [lia|].
    rewrite Ef. exists 0%nat, (with_wel true c0), [], (f_log f0 ++ [[6]]), sc, pc. split; [done|]. split; [apply pc_len|].
    exists 0%nat. split; [done|]. split; [|done]. split; [rewrite pc_len; lia|]. split; [by right|done].
  - destruct H as (i & Hdr & P & -> & -> & ->).
    assert (Epp : f_pp f = pp) by by rewrite Ef.
    destruct (run_cmd_spec f (f_pp f) pc i P ltac:(rewrite Epp, pc_len; done) ltac:(by rewrite Epp) Ho) as (l' & c' & cur' & lg' & sc' & buf & r & g & E & U & L & D).
    rewrite E. cbn [rbind]. rewrite pc_len, Epp in D.
    assert (Hi : (i < 260)%nat) by (destruct P as (P & _); rewrite pc_len in P; lia).
    destruct D as [(-> & i' & G & P' & El & Er & Eb)|(-> & -> & -> & -> & -> & c & Er & -> & Eb & Ha)].
    + exists (set_pp buf (tr l' c' cur' lg' sc' f)), (- EAGAIN), (262 - i')%nat, g. split; [done|]. split; [done|]. split; [done|].
      assert (Hi' : (i' < 260)%nat) by (destruct P' as (P' & _); rewrite pc_len in P'; lia). split; [lia|]. left. split; [done|]. split; [|done].
      assert (Hlen : length (take i pp ++ answers c' pc i (i' - i)) = i') by (rewrite app_length, take_length, answers_len; lia).
      exists l', c', cur', lg', sc', buf. split; [by rewrite Ef|]. split.
      { rewrite Eb, app_assoc, app_length, Hlen, drop_length. lia. }
      exists i'. split.
      { rewrite Eb, app_assoc, drop_app_ge by lia. rewrite Hlen, Nat.sub_diag, drop_0.
        replace i' with (i + (i' - i))%nat at 1 2 by lia. rewrite <- !drop_drop. by rewrite Hdr. }
      split; [done|]. split; [|split; [|done]]; [|by rewrite El, Ef].
      apply ready_idle; [done|]. by rewrite Ef in Er.
    + exists (set_pp buf (tr 0 (chip_exec c pc) [] (f_log f ++ [pc]) sc' f)), 0, 2%nat, 1%nat. split; [done|]. split; [done|]. split; [done|]. split; [lia|].
      right. split; [done|]. exists 0%nat, (chip_exec c pc), [], (f_log f ++ [pc]), sc', buf. split; [by rewrite Ef|]. split.
      { rewrite Eb, app_length, take_length, answers_len. lia. }
      exists 0%nat, []. split; [split; [cbn; lia|split; [by right|done]]|].
      rewrite Ef in Er |- *. cbn in Er. assert (c = with_wel true c0) as -> by (apply ready_idle; done).
      split; [by left|]. split; [|split; [constructor|done]]. cbn [set_seq tr set_script set_chip set_left set_pp f_log]. by rewrite <- app_assoc.
  - destruct H as (i & p & P & Hc & -> & Hpo & ->).
    destruct (run_busy_spec f i P Ho) as (l' & c' & cur' & lg' & sc' & r & g & E & U & Er & D). rewrite E.
    assert (Hi2 : (i < 2)%nat) by apply P.
    assert (Hc' : ready_of cW c') by (eapply ready_trans; [exact Hc|]; by rewrite Ef in Er).
    destruct D as [(-> & L & i' & P' & D)|(-> & -> & -> & -> & -> & Eb)].
    + exists (tr l' c' cur' lg' sc' f), (- EAGAIN), (2 - i')%nat, g. split; [done|]. split; [done|]. split; [done|].
      assert (i' < 2)%nat by apply P'. split.
      { intros Y. destruct D as [(_ & D)|(_ & _ & _ & D)]; [lia|done]. }
      left. split; [done|]. split; [|done]. exists l', c', cur', lg', sc', pp. split; [by rewrite Ef|]. split; [done|].
      destruct D as [(-> & D)|(-> & -> & Db & D)].
      * exists i', p. split; [done|]. split; [done|]. rewrite Ef. done.
      * exists 0%nat, (p ++ [[5; 0]]). split; [done|]. split; [done|]. rewrite Ef. cbn [set_seq tr set_script set_chip set_left set_pp f_log].
        split; [by rewrite <- !app_assoc|]. split; [|done]. apply Forall_app. split; [done|by constructor].
    + exists (tr 0 c' [] (f_log f ++ [[5; 0]]) sc' f), 0, 0%nat, 1%nat. split; [done|]. split; [done|]. split; [done|]. split; [lia|]. right. split; [done|].
      exists 0%nat, c', [], (f_log f ++ [[5; 0]]), sc', pp. split; [by rewrite Ef|]. split; [done|]. exists (p ++ [[5; 0]]). split; [done|]. split; [done|]. split; [done|]. split; [done|].
      rewrite Ef. cbn [set_seq tr set_script set_chip set_left set_pp f_log]. split; [by rewrite <- !app_assoc|].
      split; [rewrite app_length; cbn [length]; lia|]. apply Forall_app. split; [done|by constructor].
Qed.

Lemma cW_spec : 0 <= off < 16777216 -> off < c_size c0 -> off mod 256 = 0 ->
  c_size cW = c_size c0 /\
  forall x, c_mem cW x = if (off <=? x) && (x <? off + 256) then Z.land (c_mem c0 x) (nth (Z.to_nat (x - off)) page 0) else c_mem c0 x.
Proof.
  intros Ho Hsz Hal. assert (Hb0 : c_busy c0 = false) by apply Hid.
  unfold cW, chip_exec. cbn [with_wel c_busy]. rewrite Hb0. cbn [addr_bytes app]. cbv iota. cbn [c_wel with_wel c_size c_mem]. rewrite addr24_bytes by done.
  split; [done|]. intros x. cbn [with_mem c_mem].
  assert (Hsec : (x / 256 =? off / 256) = (off <=? x) && (x <? off + 256)).
  { pose proof (Z_div_mod_eq_full off 256). pose proof (Z_div_mod_eq_full x 256). pose proof (Z.mod_pos_bound x 256 ltac:(lia)).
    destruct (Z.leb_spec off x), (Z.ltb_spec x (off + 256)), (Z.eqb_spec (x / 256) (off / 256)); cbn; try done; lia. }
  rewrite Hsec. destruct (Z.leb_spec off x), (Z.ltb_spec x (off + 256)); cbn [andb]; try done.
  rewrite Z.mod_small by lia. destruct (page !! Z.to_nat (x - off)) eqn:E.
  - by rewrite (nth_lookup_Some _ _ 0 _ E).
  - apply lookup_ge_None in E. rewrite page_len in E. lia.
Qed.
End write.

Lemma write_run v f off data N : flash_known f -> flash_idle f -> only_eagain (f_script f) -> 0 <= off < f_total f -> off mod 256 = 0 ->
  data <> [] -> (v = SST26VF -> off + Z.of_nat (length data) < f_total f) ->
  let n := Nat.min (length data) 256 in
  exists (f' : fx) (r : Z), until N (flash_write v off data) f = Ok (f', r) /\
  (forall x, ~ off <= x < off + 256 -> c_mem (f_chip f') x = c_mem (f_chip f) x) /\
  (r = - EAGAIN \/
   (r = Z.of_nat n /\ flash_idle f' /\ flash_known f' /\
    (forall x, off <= x < off + 256 ->
       c_mem (f_chip f') x = Z.land (c_mem (f_chip f) x) (nth (Z.to_nat (x - off)) (take n data ++ drop (4 + n) (f_pp f)) 0)) /\
    exists p, polls p /\ f_log f' = f_log f ++ [[6]; 2 :: addr_bytes off ++ take n data ++ drop (4 + n) (f_pp f)] ++ p)) /\
  (always_ready (f_script f) -> (263 <= exchanges (f_script f))%nat -> (length (f_script f) < N)%nat -> r = Z.of_nat n).
Proof.
  intros (K1 & K2 & K3 & K4 & K5) (I1 & I2 & I3 & I4) Ho Hoff Hmod Hne Hv n.
  assert (Hid : flash_idle f) by done. assert (Ho24 : 0 <= off < 16777216) by lia.
  assert (Hsz : off < c_size (f_chip f)) by lia.
  assert (Hlen : (0 < length data)%nat) by (destruct data; [done|cbn [length]; lia]).
  assert (Hn : (0 < n <= 256)%nat) by (subst n; lia). assert (Hd : (n <= length data)%nat) by (subst n; lia).
  assert (Start : Iwr f off n data 0 263 f).
  { exists (f_left f), (f_chip f), (f_cur f), (f_log f), (f_script f), (f_pp f). split; [destruct f; cbn in *; by subst|]. split; [done|]. split; [done|]. split; [|done].
    split; [cbn; lia|]. split; [by right|done]. }
  assert (Hop : forall k b g, (k < 4)%nat -> Iwr f off n data k b g -> flash_write v off data g = sequence 5 (write_steps off n data) (fun f => Ok (set_seq 0 f, Z.of_nat n)) g).
  { intros k b g _ (l & c & cur & lg & sc & pp & Eg & _). unfold flash_write. rewrite Eg. cbn [set_seq tr set_script set_chip set_left set_pp f_total].
    destruct (Nat.eqb_spec (length data) 0); [lia|]. rewrite Hmod. cbn [Z.eqb negb].
    assert (X : match v with SST26VF => negb (off + Z.of_nat (length data) <? f_total f) | S25FL1 => false end = false) by (destruct v; [done|specialize (Hv eq_refl); lia]).
    rewrite X. done. }
  destruct (until_run (Iwr f off n data) 4 (write_steps off n data) (fun f => Ok (set_seq 0 f, Z.of_nat n)) (write_ok f off n data Hid K1 Hn Hd) eq_refl
              (flash_write v off data) 5 ltac:(lia) Hop (Z.of_nat n) ltac:(lia) (fun _ => eq_refl) N 0 263 f ltac:(lia) Start I2 Ho)
    as (f' & k' & b' & g & U & R & Sq & If & D).
  destruct (cW_spec f off n data Hid K1 Hn Hd Ho24 Hsz Hmod) as (Esz & Hmem).
  assert (Hr : forall c x, ready_of (cW f off n data) c -> c_mem c x = c_mem (cW f off n data) x) by (intros c x [->| ->]; done).
  assert (Hkeep : forall x, ~ off <= x < off + 256 -> c_mem (f_chip f') x = c_mem (f_chip f) x).
  { intros x Hx. assert (E : c_mem (cW f off n data) x = c_mem (f_chip f) x).
    { rewrite Hmem. destruct (Z.leb_spec off x), (Z.ltb_spec x (off + 256)); cbn; try done. lia. }
    destruct If as (l & c & cur & lg & sc & pp & Ef & _ & H). rewrite Ef. cbn [set_seq tr set_script set_chip set_left f_chip].
    destruct k' as [|[|[|[|k']]]].
    - destruct H as (_ & _ & -> & _). done.
    - destruct H as (_ & _ & _ & -> & _). done.
    - destruct H as (i & _ & _ & -> & _). done.
    - destruct H as (i & p & _ & Hc & _). by rewrite (Hr _ _ Hc).
    - destruct H as (p & _ & _ & Hc & _). by rewrite (Hr _ _ Hc). }
  assert (Hlive : always_ready (f_script f) -> (263 <= exchanges (f_script f))%nat -> (length (f_script f) < N)%nat ->
    exists f'', until N (flash_write v off data) f = Ok (f'', Z.of_nat n)).
  { intros A1 A2 A3. apply (until_live (Iwr f off n data) 4 (write_steps off n data) (fun f => Ok (set_seq 0 f, Z.of_nat n)) (write_ok f off n data Hid K1 Hn Hd) eq_refl
              (flash_write v off data) 5 ltac:(lia) Hop (Z.of_nat n) ltac:(lia) (fun _ => eq_refl) N 0 263 f); try done; try lia.
    intros k b h Hk (l & c & cur & lg & sc & pp & Eh & Hpl & H). destruct k as [|[|[|[|k]]]]; [| | | |lia].
    - destruct H as (_ & _ & _ & _ & ->). lia.
    - destruct H as (_ & _ & _ & _ & _ & ->). lia.
    - destruct H as (i & _ & (P & _) & _ & _ & ->). rewrite (pc_len f off n data K1 Hn Hd) in P. lia.
    - destruct H as (i & p & (P & _) & _ & _ & _ & ->). cbn in P. lia. }
  destruct D as [(K & E & L)|(-> & E)].
  - exists f', (- EAGAIN). split; [done|]. split; [done|]. split; [by left|]. intros A1 A2 A3. destruct (Hlive A1 A2 A3) as (f'' & E'). rewrite E in E'. injection E' as _ E'. unfold EAGAIN in E'. lia.
  - exists (set_seq 0 f'), (Z.of_nat n). split; [done|]. split; [done|]. split; [|done]. right. split; [done|].
    destruct If as (l & c & cur & lg & sc & pp & Ef & Hpl & (p & -> & -> & Hc & Hb & -> & Hp)). rewrite Ef.
    assert (Esz' : c_size c = c_size (f_chip f)) by (rewrite <- Esz; destruct Hc as [->| ->]; done).
    split; [by repeat split|]. split.
    { unfold flash_known. cbn [set_seq tr set_script set_chip set_left set_pp f_pp f_ulen f_total f_chip]. rewrite Esz'. done. }
    split; [|by exists p]. intros x Hx. cbn [set_seq tr set_script set_chip set_left set_pp f_chip]. rewrite (Hr _ _ Hc), Hmem.
    destruct (Z.leb_spec off x), (Z.ltb_spec x (off + 256)); cbn [andb]; try lia. done.
Qed.
