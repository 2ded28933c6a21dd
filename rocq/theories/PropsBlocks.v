(** Property theorems C125 to C133: which transactions are included, how much goes into a block, and what becomes of messages from other chains until
    they are executed. Words: TransactionsSpec.v, BlocksSpec.v and QueueSpec.v. *)
From stdpp Require Import gmap.
From Verif Require Import TransactionsModel TransactionsSpec TransactionsProofs BlocksModel BlocksSpec BlocksProofs QueueModel QueueSpec QueueProofs.
Open Scope N_scope.

(** A chain on which nothing is feeless and every fee is paid; hashes are the numbers of blocks plus a thousand. *)
Definition t_env : tenv := TEnv (fun n => 1000 + n) (fun _ _ => false) (fun _ _ => true).
(** The first transaction of account 7, for ever: call 50. *)
Definition t_first : tx := Tx 7 0 Immortal 50 114 9 1000 1000.
(** Its second one, valid for 64 blocks from block 1 on. *)
Definition t_second : tx := Tx 7 1 (Mortal 64 1) 51 114 9 1000 1001.

(* ------------------------------------------------------------------ *)
(** * C125: a signed transaction takes effect at most once *)

(** Refuted: an account is reaped when its balance falls below the minimum, and its nonce with it. Whoever kept a transaction without an end submits it again,
    once somebody sends the account something. *)
Theorem C125_at_most_once_refuted : exists e c t l, included e c t /\ te_feeless e c t = false /\
  included e (trun e (default c (apply_tx e c t)) l) t /\ te_feeless e (trun e (default c (apply_tx e c t)) l) t = false.
Proof.
  exists t_env, (trun t_env (tgenesis t_env) [TxEndow 7]), t_first, [TxBlock; TxReap 7; TxBlock; TxEndow 7].
  split_and!; [by eexists|reflexivity|by eexists|reflexivity].
Qed.
Print Assumptions C125_at_most_once_refuted.

(** Refuted: for a call that its pallet declares feeless the nonce is neither checked nor raised (and the account need not exist); it is included again in the same
    block. *)
Theorem C125_feeless_refuted : exists e c t, included e c t /\ included e (trun e c [TxApply t]) t /\ ch_nonces c !! tx_who t = None.
Proof. exists (TEnv (fun n => 1000 + n) (fun _ _ => true) (fun _ _ => true)), (tgenesis t_env), t_first. split_and!; [by eexists|by eexists|reflexivity]. Qed.
Print Assumptions C125_feeless_refuted.

(** What holds: between two inclusions of a transaction that is not feeless its signer's account was reaped, or more than four thousand million others
    of the same signer were included. *)
Theorem C125_at_most_once_partial : forall e c t c1 l,
  apply_tx e c t = Some c1 -> te_feeless e c t = false ->
  included e (trun e c1 l) t -> te_feeless e (trun e c1 l) t = false ->
  In (TxReap (tx_who t)) l \/ 2 ^ 32 <= 1 + N.of_nat (length (nonces_of e c1 l (tx_who t))).
Proof. exact included_again. Qed.
Print Assumptions C125_at_most_once_partial.
(** Two inclusions of a mortal transaction, feeless or not, are less than its period apart. *)
Theorem C125_mortal_partial : forall e l1 l2 t p f,
  distinct_hashes e -> tx_era t = Mortal p f -> 0 < p ->
  included e (trun e (tgenesis e) l1) t -> included e (trun e (tgenesis e) (l1 ++ l2)) t ->
  ch_number (trun e (tgenesis e) (l1 ++ l2)) < ch_number (trun e (tgenesis e) l1) + p.
Proof. exact mortal_window. Qed.
Print Assumptions C125_mortal_partial.

Example C125_case : let c := trun t_env (tgenesis t_env) [TxEndow 7; TxApply t_first; TxBlock] in
  included t_env c t_second /\ ~ included t_env c t_first /\ ~ included t_env (trun t_env c [TxApply t_second]) t_second /\
  included t_env (trun t_env (tgenesis t_env) [TxEndow 7]) t_first /\ distinct_hashes t_env.
Proof.
  cbn zeta. split_and!; [by eexists| | |by eexists|].
  - intros [c H]. vm_compute in H. discriminate.
  - intros [c H]. vm_compute in H. discriminate.
  - intros m n H. cbn in H. lia.
Qed.

(* ------------------------------------------------------------------ *)
(** * C126: transactions of an account are applied in order *)

(** While the account exists, those of its transactions that are not feeless are included exactly in the order of their nonces, with no gap. *)
Theorem C126_in_order : forall e c l who n,
  ch_nonces c !! who = Some n -> n < 2 ^ 32 -> ~ In (TxReap who) l ->
  nonces_of e c l who = map (fun k => (n + N.of_nat k) mod 2 ^ 32) (seq 0 (length (nonces_of e c l who))).
Proof. exact in_order. Qed.
Print Assumptions C126_in_order.

Example C126_case : let c := trun t_env (tgenesis t_env) [TxEndow 7; TxBlock] in
  ch_nonces c !! 7 = Some 0 /\
  nonces_of t_env c [TxApply t_second; TxApply t_first; TxApply t_first; TxBlock; TxApply t_second; TxApply t_second] 7 = [0; 1].
Proof. by vm_compute. Qed.

(* ------------------------------------------------------------------ *)
(** * C127: only where and when it was signed for *)

(** A transaction is included only on the chain it was signed for, by a runtime of the versions it was signed for, and, unless it is without end, in
    fewer blocks after the one it names than its period (and than 4097). *)
Theorem C127_only_as_signed : forall e l t,
  let c := trun e (tgenesis e) l in
  (forall p f, tx_era t = Mortal p f -> 0 < p) -> included e c t ->
  in_scope e (ch_number c) (ch_spec c) (ch_txv c) t.
Proof. exact only_as_signed. Qed.
Print Assumptions C127_only_as_signed.
(** Eras that can be written down have a period from four to 65536. *)
Theorem C127_eras : forall enc p f,
  decode_era enc = Some (Mortal p f) -> 4 <= p <= 65536 /\ f < p.
Proof. exact decoded_era. Qed.
Print Assumptions C127_eras.

Example C127_case : let c := trun t_env (tgenesis t_env) [TxEndow 7; TxApply t_first; TxBlock] in
  included t_env c t_second /\ decode_era 21 = Some (Mortal 64 1) /\ decode_era 0 = None /\ ~ included t_env (trun t_env c [TxUpgrade 115 9]) t_second /\
  ~ included t_env (trun t_env c (replicate 63 TxBlock)) t_second /\ included t_env (trun t_env c (replicate 62 TxBlock)) t_second.
Proof.
  cbn zeta. split_and!; [by eexists|reflexivity|reflexivity| | |by eexists].
  - intros [c H]. vm_compute in H. discriminate.
  - intros [c H]. vm_compute in H. discriminate.
Qed.

(* ------------------------------------------------------------------ *)
(** * C128: blocks fit *)

(** Refuted: the scheduler may take 80% and the queue of messages 35% of a block. *)
Theorem C128_blocks_fit_refuted : exists scheduler queue, within scheduler (percent 80 max_block) /\ within queue (percent 35 max_block) /\
  ~ within (total (begun scheduler queue)) max_block.
Proof. destruct hooks_exceed as (s & q & H1 & H2 & H3 & _). eauto. Qed.
Print Assumptions C128_blocks_fit_refuted.
(** Refuted also when hooks stay within a quarter: what is reserved for operational transactions comes on top of what others used. *)
Theorem C128_reserve_refuted : exists hooks l, within hooks (percent 25 max_block) /\ (forall s, In s l -> exists c w len u, s = BTx c w len u /\ c <> Mandatory) /\
  ~ within (total (brun (brun empty_block [BHook hooks]) l)) max_block.
Proof. exact reserve_exceeds. Qed.
Print Assumptions C128_reserve_refuted.

(** What holds: normal transactions use three quarters at most, and together with operational ones no more than a block has; only what is mandatory (hooks and inherents)
    comes on top of it; the extrinsics are no longer than five mebibytes. *)
Theorem C128_blocks_fit_partial : forall l,
  let b := brun empty_block l in
  within (b_normal b) normal_share /\ within (wadd (b_normal b) (b_operational b)) max_block /\
  within (total b) (wadd max_block (b_mandatory b)) /\ b_length b <= 5 * 1024 * 1024.
Proof. exact classes_fit. Qed.
Print Assumptions C128_blocks_fit_partial.
(** When a transaction is let in, the proof of the block, extrinsics included, is within its limit; for a normal one time too. *)
Theorem C128_admission_partial : forall b c w len b',
  check_weight b c w len = Some b' ->
  (c <> Mandatory -> w_proof (total b') + b_length b' <= w_proof max_block) /\ (c = Normal -> within (total b') max_block).
Proof. exact admission_fits. Qed.
Print Assumptions C128_admission_partial.

Example C128_case : let b := brun empty_block [BHook (W 100000000000 1000); BTx Normal (W 1399875000000 100000) 200 (W 1000000000000 50000);
    BTx Operational (W 3000000000 0) 100 (W 3000000000 0)] in
  b = Block (W 1000125000000 50000) (W 3125000000 0) (W 105000000000 1000) 300 /\
  check_weight b Normal (W 400000000000 0) 10 = Some (Block (W 1400250000000 50000) (W 3125000000 0) (W 105000000000 1000) 310) /\
  check_weight b Normal (W 500000000000 0) 10 = None.
Proof. by vm_compute. Qed.

(* ------------------------------------------------------------------ *)
(** * C129: room for operational transactions *)

(** Refuted, against the comment at runtime/kreivo/src/configuration/system_support.rs:31-33: a block whose proof others filled takes no operational transaction, although
    none of what is reserved was used and hooks stayed within their limits. *)
Theorem C129_reserve_refuted : exists l w, (forall s, In s l -> match s with BHook h => within h (percent 35 max_block) | BTx c _ _ _ => c = Normal end) /\
  within w (percent 1 max_block) /\ b_operational (brun empty_block l) = W 0 0 /\ within (total (brun empty_block l)) max_block /\
  ~ admitted (brun empty_block l) Operational w 200.
Proof. exact reserve_gone. Qed.
Print Assumptions C129_reserve_refuted.
(** What holds: whatever came before in the block, an operational transaction gets in if operational ones use no more than a quarter of a block with it, and the proof
    can hold it. *)
Theorem C129_reserve_partial : forall l w len,
  let b := brun empty_block l in
  within (wadd (b_operational b) (wadd w base_extrinsic)) (percent 25 max_block) ->
  w_proof (total b) + w_proof w + (b_length b + len) <= w_proof max_block ->
  admitted b Operational w len.
Proof. exact operational_reserve. Qed.
Print Assumptions C129_reserve_partial.

(** A block full in time still takes an operational transaction. *)
Example C129_case : let b := brun empty_block [BHook (W 400000000000 0); BTx Normal (W 1390000000000 0) 100 (W 1390000000000 0); BTx Normal (W 100000000000 0) 100 (W 100000000000 0)] in
  w_time (total b) = 1895250000000 /\ ~ admitted b Normal (W 105000000000 0) 100 /\
  within (wadd (b_operational b) (wadd (W 400000000000 0) base_extrinsic)) (percent 25 max_block) /\ admitted b Operational (W 400000000000 0) 100.
Proof.
  cbn zeta. split_and!; [by vm_compute| |by vm_compute|].
  - intros [b' H]. vm_compute in H. discriminate.
  - eexists. by vm_compute.
Qed.

(* ------------------------------------------------------------------ *)
(** * C130: transactions get into blocks *)

(** Refuted: the scheduler and the queue of messages, each within its limit, leave no room for any normal transaction. *)
Theorem C130_room_refuted : exists scheduler queue, within scheduler (percent 80 max_block) /\ within queue (percent 35 max_block) /\
  forall w len, 0 < len -> ~ admitted (begun scheduler queue) Normal w len.
Proof. destruct hooks_exceed as (s & q & H1 & H2 & _ & H3). eauto. Qed.
Print Assumptions C130_room_refuted.
(** Exactly: none gets in once hooks used the time or the proof of a block. *)
Theorem C130_starved_refuted : forall hooks w len,
  w_time max_block <= w_time hooks \/ w_proof max_block <= w_proof hooks -> 0 < len ->
  ~ admitted (brun empty_block [BHook hooks]) Normal w len.
Proof. exact hooks_starve. Qed.
Print Assumptions C130_starved_refuted.
(** What holds: every normal transaction a class permits gets into a block in which hooks (and every block's own cost) used no more than thirty percent. *)
Theorem C130_room_partial : forall hooks w len,
  permitted Normal w len ->
  w_time hooks + w_time base_block <= w_time (percent 30 max_block) -> w_proof hooks + len <= w_proof (percent 30 max_block) ->
  admitted (brun empty_block [BHook hooks]) Normal w len.
Proof. exact normal_admitted. Qed.
Print Assumptions C130_room_partial.

Example C130_case : permitted Normal (W 1399875000000 3670016) 1000 /\ admitted (brun empty_block [BHook (W 500000000000 1000000)]) Normal (W 1399875000000 3670016) 1000.
Proof. split; [by vm_compute|]. eexists. by vm_compute. Qed.

(* ------------------------------------------------------------------ *)
(** * C131: messages delivered by a sibling chain are queued *)

(** Refuted: a message as long as channels allow is dropped with all that follow it in its page, since an item of the queue has at most 64 kibibytes. *)
Theorem C131_queued_refuted : exists m l, mg_size m <= 102400 /\ page_size (messages (m :: l)) <= 103 * 1024 /\ l <> [] /\ (forall m', In m' l -> mg_size m' <= 100) /\
  forall q o room o', mq_waiting (do_qstep q (QPage o room (messages (m :: l)))) o' = mq_waiting q o'.
Proof.
  exists (Msg 1 70000 (W 1000 1000)), [Msg 2 100 (W 1000 1000); Msg 3 100 (W 1000 1000)].
  split_and!; [done|by vm_compute|done| |].
  - intros m' [<-|[<-|[]]]; done.
  - intros q o room o'. by destruct room.
Qed.
Print Assumptions C131_queued_refuted.
(** What holds: a page of messages of at most 65531 bytes each, for which there is room, is queued whole, behind those that wait. *)
Theorem C131_queued_partial : forall q o room l,
  (forall m, In m l -> mg_size m <= 65531) -> (length l <= room)%nat ->
  mq_waiting (do_qstep q (QPage o room (messages l))) o = mq_waiting q o ++ l.
Proof. exact page_queued. Qed.
Print Assumptions C131_queued_partial.

Example C131_case : let l := [Msg 1 65531 (W 1000 1000); Msg 2 100 (W 1000 1000)] in
  take_page 5 (messages l ++ [PBroken; PMsg (Msg 3 1 (W 1 1))]) = l /\ take_page 5 (messages l) = l.
Proof. by vm_compute. Qed.

(* ------------------------------------------------------------------ *)
(** * C132: the account of the queue *)

(** Every message of a chain that got into the queue was executed, is set aside or waits, exactly once; those that fit the limit are executed in the order of
    their delivery, and only those that do not are set aside. *)
Theorem C132_account : forall l o,
  let q := qrun mq0 l in
  Permutation (queued l o) (from_chain o (mq_done q) ++ from_chain o (mq_aside q) ++ mq_waiting q o) /\
  List.filter (fun m => negb (too_heavy m)) (queued l o) =
    List.filter (fun m => negb (too_heavy m)) (from_chain o (mq_done q)) ++ List.filter (fun m => negb (too_heavy m)) (mq_waiting q o) /\
  (forall x, In x (mq_aside q) -> too_heavy (snd x) = true).
Proof. exact queue_account. Qed.
Print Assumptions C132_account.

(** Two chains; the second message of chain 1 is beyond the limit. *)
Definition q_light (i : N) : msg := Msg i 100 (W 300000000000 1000).
Definition q_heavy : msg := Msg 9 100 (W 800000000000 1000).
Definition q_steps : list qstep := [QPage 1 10 (messages [q_light 1; q_heavy; q_light 2; q_light 3]); QPage 2 10 (messages [q_light 4])].
Definition nobody : N -> bool := fun _ => false.

Example C132_case : 
  let q1 := qrun mq0 (q_steps ++ [QBlock nobody]) in
  let q2 := qrun mq0 (q_steps ++ [QBlock nobody; QBlock nobody; QAside 0 (W 800000000000 1000)]) in
  mq_done q1 = [(1, q_light 1); (1, q_light 2)] /\ mq_aside q1 = [(1, q_heavy)] /\ mq_waiting q1 1 = [q_light 3] /\ mq_waiting q1 2 = [q_light 4] /\ mq_ring q1 = [2; 1] /\
  mq_done q2 = [(1, q_light 1); (1, q_light 2); (2, q_light 4); (1, q_light 3); (1, q_heavy)] /\ mq_aside q2 = [] /\ mq_ring q2 = [].
Proof. by vm_compute. Qed.

(* ------------------------------------------------------------------ *)
(** * C133: messages that were queued are executed *)

(** Refuted: a message that needs more than a transaction may is never executed, whatever happens. *)
Theorem C133_executed_refuted : exists m, within (mg_weight m) max_block /\ mg_size m <= 65531 /\
  forall l o, ~ In m (from_chain o (mq_done (qrun mq0 l))).
Proof.
  exists (Msg 1 100 (W 1500000000000 1000)). split_and!; [by vm_compute|done|]. intros l o H.
  unfold from_chain in H. apply in_map_iff in H as ([o' m] & Hm & Hin). apply filter_In in Hin as [Hin _]. cbn in Hm. subst m.
  pose proof (executed_fits l mq0 ltac:(intros x []) _ Hin) as Hf. vm_compute in Hf. discriminate.
Qed.
Print Assumptions C133_executed_refuted.
(** What holds: a message that fits the limit is executed within as many blocks as there are chains that deliver, for it and for each message of its chain
    before it, however much others deliver meanwhile, unless its chain is paused. *)
Theorem C133_executed_partial : forall chains l1 l2 o pre m post,
  only_from chains (l1 ++ l2) -> never_paused o l2 -> mq_waiting (qrun mq0 l1) o = pre ++ m :: post -> too_heavy m = false ->
  ((length pre + 1) * length chains <= blocks l2)%nat ->
  exists x, from_chain o (mq_done (qrun mq0 (l1 ++ l2))) = from_chain o (mq_done (qrun mq0 l1)) ++ x /\ In m x.
Proof. exact executed_in_time. Qed.
Print Assumptions C133_executed_partial.
(** Whatever is executed needs no more than a transaction may. *)
Theorem C133_executed_fits_partial : forall l x, In x (mq_done (qrun mq0 l)) -> within (mg_weight (snd x)) (W 1399875000000 3670016).
Proof. intros l x H. apply any_gt_false. apply (executed_fits l mq0); [intros y []|exact H]. Qed.
Print Assumptions C133_executed_fits_partial.

Example C133_case : only_from [1; 2] (q_steps ++ [QBlock nobody; QBlock nobody; QBlock nobody; QBlock nobody]) /\
  mq_waiting (qrun mq0 q_steps) 2 = [] ++ q_light 4 :: [] /\ too_heavy (q_light 4) = false /\ never_paused 2 [QBlock nobody; QBlock nobody] /\
  from_chain 2 (mq_done (qrun mq0 (q_steps ++ [QBlock nobody; QBlock nobody]))) = [q_light 4].
Proof.
  split_and!; [|reflexivity|reflexivity| |by vm_compute].
  - intros o room p [H|[H|[H|[H|[H|[H|[]]]]]]]; inversion H; subst; cbn; auto.
  - intros p [H|[H|[]]]; inversion H; subst; reflexivity.
Qed.
