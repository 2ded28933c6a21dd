(** Property theorems C170, C171: proxies that act with a delay. The program is DelayedModel.v; the words are in DelayedSpec.v. *)
From stdpp Require Import gmap.
From Verif Require Import Base ProxyModel DelayedModel DelayedSpec Delayed.
Open Scope N_scope.

(* ------------------------------------------------------------------ *)
(** * C170: what a delayed proxy does was announced, and could be stopped *)

(** Whatever is done through a proxy, the account had given it and not ended it; and if it has a delay, the very call was announced by the
    delegate at least that long before, and neither rejected nor withdrawn since. *)
Theorem C170_announced : forall hash now l before n real d ty delay a c after,
  record hash now l = before ++ (n, Acted real d ty delay a c) :: after ->
  (exists m, gave before real d ty delay m) /\ (0 < delay -> exists m, announced before d real (hash c) m /\ m + delay <= n).
Proof. exact was_announced. Qed.
Print Assumptions C170_announced.

(** Announced once, done at most once. *)
Theorem C170_once : forall hash now l d real h,
  (times (used hash d real h) (record hash now l) <= times (announcing d real h) (record hash now l))%nat.
Proof. exact used_once. Qed.
Print Assumptions C170_once.

(** What is announced can be stopped: by the account, and by who guards it with a CancelProxy. *)
Theorem C170_stopped : forall hash s e d real h m, (real, h, m) ∈ pending_of s d ->
  (let r := xstep hash s (XTx e real (DReject d h)) in
   snd r = [(x_now s, Rejected real d h)] /\ (forall m', (real, h, m') ∉ pending_of (fst r) d)) /\
  (forall g, has_proxy s real g CancelProxy 0 ->
   let r := xstep hash s (XTx e g (DProxy real (Some CancelProxy) (DReject d h))) in
   (x_now s, Rejected real d h) ∈ snd r /\ (forall m', (real, h, m') ∉ pending_of (fst r) d)).
Proof. exact stopped. Qed.
Print Assumptions C170_stopped.

(** What was not stopped can be done after the delay. *)
Theorem C170_in_time : forall hash e s real d ty delay c who m,
  has_proxy s real d ty delay -> (real, hash c, m) ∈ pending_of s d -> m + delay <= x_now s ->
  exists l, snd (xstep hash s (XTx e who (DProxyAnnounced d real (Some ty) c))) = (x_now s, Acted real d ty delay true c) :: l.
Proof. exact can_act. Qed.
Print Assumptions C170_in_time.

(** What others sign is done in an account's name only through one of its proxies. *)
Theorem C170_own_name : forall hash s e who c n real k, (n, Did real k) ∈ snd (xstep hash s (XTx e who c)) -> real <> who ->
  exists d ty delay a c', (n, Acted real d ty delay a c') ∈ snd (xstep hash s (XTx e who c)).
Proof. exact own_name. Qed.
Print Assumptions C170_own_name.

(** Account 1 makes 2 its proxy for anything after 3 blocks, and 3 its guard. 2 announces; 3 rejects. 2 announces again, tries at once, and
    four blocks later acts; a second time nothing happens. *)
Definition h7 (c : dcall) : N := match c with DOther _ => 7 | _ => 8 end.
Definition pay_out : dcall := DOther (RBalances TransferAllowDeath).
Definition h_delayed : list dxstep :=
  [XTx willing 1 (DAddProxy 2 Any 3); XTx willing 1 (DAddProxy 3 CancelProxy 0); XTx willing 2 (DAnnounce 1 7); XBlock; XBlock;
   XTx willing 3 (DProxy 1 (Some CancelProxy) (DReject 2 7)); XBlock; XTx willing 2 (DProxyAnnounced 2 1 None pay_out);
   XTx willing 2 (DAnnounce 1 7); XBlock; XBlock; XTx willing 2 (DProxyAnnounced 2 1 None pay_out); XTx willing 2 (DProxy 1 None pay_out); XBlock;
   XTx willing 9 (DProxyAnnounced 2 1 None pay_out); XTx willing 9 (DProxyAnnounced 2 1 None pay_out)].
Example C170_case : record h7 100 h_delayed =
  [(100, Added 1 2 Any 3); (100, Added 1 3 CancelProxy 0); (100, Announced 2 1 7); (102, Acted 1 3 CancelProxy 0 false (DReject 2 7));
   (102, Rejected 1 2 7); (103, Announced 2 1 7); (106, Acted 1 2 Any 3 true pay_out); (106, Did 1 (RBalances TransferAllowDeath))] /\
  pending_of (fst (xrun h7 (x_start 100) (take 4 h_delayed))) 2 = [(1, 7, 100)] /\
  has_proxy (fst (xrun h7 (x_start 100) (take 4 h_delayed))) 1 3 CancelProxy 0.
Proof.
  split; [vm_compute; reflexivity|]. split; [vm_compute; reflexivity|].
  assert (E : proxies_of (fst (xrun h7 (x_start 100) (take 4 h_delayed))) 1 = [(2, Any, 3); (3, CancelProxy, 0)]) by (vm_compute; reflexivity).
  unfold has_proxy. rewrite E. split; [right; left|]. intros n H. apply elem_of_cons in H as [H|H]; [discriminate H|].
  apply elem_of_list_singleton in H. injection H as ->. reflexivity.
Qed.

(* ------------------------------------------------------------------ *)
(** * C171: who gives a proxy with a delay has that long to reconsider *)

(** Refuted: a delegate who has another proxy of the account, one without delay that may do next to nothing, announces ahead. The proxy with
    the delay then acts in the block in which it is given, whatever the delay and whatever the call. *)
Theorem C171_reconsider_refuted : forall hash now real d delay c, real <> d -> 0 < delay ->
  exists before after, record hash now (ahead hash real d delay c) =
    before ++ [(now + delay, Added real d Any delay); (now + delay, Acted real d Any delay true c)] ++ after.
Proof. exact too_early. Qed.
Print Assumptions C171_reconsider_refuted.

(** What holds: since the account first made someone its proxy, of whatever kind, any delay with which they act has passed. *)
Theorem C171_reconsider_partial : forall hash now l l1 m0 real d ty0 n0 l2 n ty delay a c after,
  record hash now l = l1 ++ (m0, Added real d ty0 n0) :: l2 ++ (n, Acted real d ty delay a c) :: after ->
  (forall m ty' n', (m, Added real d ty' n') ∉ l1) -> 0 < delay -> m0 + delay <= n.
Proof. exact first_given. Qed.
Print Assumptions C171_reconsider_partial.

Example C171_case : record h7 100 (ahead h7 1 2 3 pay_out) =
  [(100, Added 1 2 Collator 0); (100, Announced 2 1 7); (103, Added 1 2 Any 3); (103, Acted 1 2 Any 3 true pay_out);
   (103, Did 1 (RBalances TransferAllowDeath))].
Proof. vm_compute. reflexivity. Qed.
