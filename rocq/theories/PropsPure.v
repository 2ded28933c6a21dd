(** Property theorems C174 to C176: accounts without keys, and what proxies cost. The program is PureModel.v; the words are in PureSpec.v. *)
From stdpp Require Import gmap.
From Verif Require Import Base RuntimeModel ProxyModel DelayedModel PureModel PureSpec Pure PropsMulti.
Open Scope N_scope.

(** An injective code for the accounts without keys, and an environment in which nothing else goes wrong, for the examples. *)
Definition k_id (m : N) (a : N * N) (t : proxy_type) (i : N) : N := Npos (m_code [m; fst a; snd a; ty_index t; i]).
Lemma k_id_differ : ids_differ k_id.
Proof.
  intros m [a1 a2] t i m' [b1 b2] t' i' H. unfold k_id in H. injection H as H. apply (m_code_inj [m; a1; a2; ty_index t; i] [m'; b1; b2; ty_index t'; i']) in H.
  injection H as -> -> -> Ht ->. destruct t, t'; try discriminate Ht; auto.
Qed.
Definition k_env : yenv := YEnv (fun _ _ => true) (fun _ _ => true).
Definition k_hash (c : ycall) : N := 0.
Definition k_pure : N := k_id 1 (2, 1) Any 0.

(* ------------------------------------------------------------------ *)
(** * C174: what is reserved for proxies and announcements is what they cost, and comes back *)

(** Whatever is signed, what an account has, free or reserved, stays the same in sum. *)
Theorem C174_total : forall pure_id hash s at_ e who c a, let s' := fst (ystep_run pure_id hash s (YTx at_ e who c)) in
  free_of s' a + held_of s' a = free_of s a + held_of s a.
Proof. exact tx_total. Qed.
Print Assumptions C174_total.
(** What they cost: 20.04 cents and 0.033 for every proxy; 20.048 cents and 0.066 for every announcement. *)
Theorem C174_costs : forall n, (0 < n)%nat -> proxies_cost n = 20 * CENTS + (40 + 33 * N.of_nat n) * MILLICENTS /\
  announcements_cost n = 20 * CENTS + (48 + 66 * N.of_nat n) * MILLICENTS /\ proxies_cost 0 = 0 /\ announcements_cost 0 = 0.
Proof.
  intros n Hn. destruct n as [|n]; [lia|]. unfold proxies_cost, announcements_cost. set (k := N.of_nat (S n)).
  replace (deposit 1 40) with 6679999980 by (vm_compute; reflexivity). replace (deposit 0 33) with 10999989 by (vm_compute; reflexivity).
  replace (deposit 1 48) with 6682666644 by (vm_compute; reflexivity). replace (deposit 0 66) with 21999978 by (vm_compute; reflexivity).
  replace CENTS with 333333333 by (vm_compute; reflexivity). replace MILLICENTS with 333333 by (vm_compute; reflexivity). split_and!; lia.
Qed.
Print Assumptions C174_costs.
(** What holds: of an account that neither makes nor closes accounts without keys, and is none, so much is reserved as its proxies and
    announcements cost, beside what is reserved for other purposes; when it has none left, all is back. *)
Theorem C174_reserved_partial : forall pure_id hash l a, (forall x, x ∈ y_record pure_id hash l -> ~ pure_deal a x) -> let s := y_end pure_id hash l in
  held_of s a = proxies_cost (length (yproxies s a)) + announcements_cost (length (ypending s a)) + others_of s a.
Proof. exact books_in_order. Qed.
Print Assumptions C174_reserved_partial.

(** 1 gives 2 a proxy, who announces something; 1 has something else reserved. *)
Definition k_plain : list ystep :=
  [YMoney 1 1000000000000; YMoney 2 1000000000000; YReserve 1 500; YTx (1, 1) k_env 1 (YAdd 2 Any 5); YTx (1, 2) k_env 1 (YAdd 3 Collator 0);
   YTx (2, 1) k_env 2 (YAnnounce 1 77); YTx (3, 1) k_env 1 (YRemove 3 Collator 0)].
Example C174_case : let s := y_end k_id k_hash k_plain in
  y_record k_id k_hash k_plain = [YAdded 1 2 Any 5; YAdded 1 3 Collator 0; YAnnEdit 2; YRemoved 1 3 Collator 0] /\
  held_of s 1 = proxies_cost 1 + 500 /\ held_of s 2 = announcements_cost 1.
Proof. vm_compute. auto. Qed.

(** Refuted: 1 has a proxy, and makes an account without keys, which gets another proxy and pays for it. When that account is closed, 1 has
    back what both paid: of 1 less is reserved than its proxy costs, while what the closed account paid is reserved for nothing. *)
Definition k_short : list ystep :=
  [YMoney 1 1000000000000; YMoney k_pure 1000000000000; YTx (1, 1) k_env 1 (YAdd 2 Any 0); YTx (2, 1) k_env 1 (YCreate Any 0 0);
   YTx (3, 1) k_env 1 (YProxy k_pure None (YAdd 3 NonTransfer 0)); YTx (4, 1) k_env 1 (YProxy k_pure None (YKill 1 Any 0 (2, 1)))].
Theorem C174_reserved_refuted : exists pure_id hash l a p, ids_differ pure_id /\ let s := y_end pure_id hash l in
  (yproxies s a = [(2, Any, 0)] /\ held_of s a < proxies_cost 1) /\
  (yproxies s p = [] /\ ypending s p = [] /\ others_of s p = 0 /\ 0 < held_of s p /\ YKilled a p ∈ y_record pure_id hash l).
Proof.
  exists k_id, k_hash, k_short, 1, k_pure. split; [exact k_id_differ|]. cbv zeta. split_and!; try (vm_compute; reflexivity).
  replace (y_record k_id k_hash k_short) with [YAdded 1 2 Any 0; YCreated 1 k_pure Any 0 0 (2, 1); YActed k_pure 1 Any 0; YAdded k_pure 3 NonTransfer 0;
    YActed k_pure 1 Any 0; YKilled 1 k_pure] by (vm_compute; reflexivity). do 5 right. left.
Qed.
Print Assumptions C174_reserved_refuted.
(** So too with what others reserved, such as the bond of a candidate to be a collator: less is reserved than that. *)
Definition k_bond : list ystep :=
  [YMoney 1 1000000000000; YMoney k_pure 1000000000000; YReserve 1 (16 * EXISTENTIAL_DEPOSIT); YTx (2, 1) k_env 1 (YCreate Any 0 0);
   YTx (3, 1) k_env 1 (YProxy k_pure None (YAdd 3 NonTransfer 0)); YTx (4, 1) k_env 1 (YProxy k_pure None (YKill 1 Any 0 (2, 1)))].
Theorem C174_bond_refuted : exists pure_id hash l a, ids_differ pure_id /\ let s := y_end pure_id hash l in
  others_of s a = 16 * EXISTENTIAL_DEPOSIT /\ held_of s a < others_of s a.
Proof. exists k_id, k_hash, k_bond, 1. split; [exact k_id_differ|]. vm_compute. auto. Qed.
Print Assumptions C174_bond_refuted.

(* ------------------------------------------------------------------ *)
(** * C175: an account without keys is used by who made it and whom it was opened to, and by no one else *)

(** Who acts for an account was made its proxy by it, or made it; and that did not end since. *)
Theorem C175_acted : forall pure_id hash l before real d ty n after, y_record pure_id hash l = before ++ YActed real d ty n :: after ->
  holds before real d ty n.
Proof. exact acted_holds. Qed.
Print Assumptions C175_acted.
(** What is done in the name of an account other than the signer's is done by one who acts for it. *)
Theorem C175_names : forall pure_id hash s at_ e who c before x after p, snd (ystep_run pure_id hash s (YTx at_ e who c)) = before ++ x :: after ->
  in_name_of p x -> p = who \/ exists d ty n, YActed p d ty n ∈ before.
Proof. exact tx_names. Qed.
Print Assumptions C175_names.
(** Making one takes over no account that has proxies; an account is made by one maker only, in one place; it is closed in favour of them. *)
Theorem C175_made : forall pure_id hash l m p ty n i a, ids_differ pure_id -> YCreated m p ty n i a ∈ y_record pure_id hash l ->
  (forall before after, y_record pure_id hash l = before ++ YCreated m p ty n i a :: after -> forall d t k, ~ holds before p d t k) /\
  (forall m' ty' n' i' a', YCreated m' p ty' n' i' a' ∈ y_record pure_id hash l -> m = m' /\ ty = ty' /\ i = i' /\ a = a') /\
  (forall m', YKilled m' p ∈ y_record pure_id hash l -> m' = m).
Proof.
  intros pure_id hash l m p ty n i a Hd H. split_and!.
  - intros before after Hs. exact (made_new _ _ _ _ _ _ _ _ _ _ _ Hs).
  - intros m' ty' n' i' a'. exact (made_by_one _ _ _ _ _ _ _ _ _ _ _ _ _ _ Hd H).
  - intros m'. exact (closed_for_maker _ _ _ _ _ _ _ _ _ _ Hd H).
Qed.
Print Assumptions C175_made.
(** Who has a proxy without delay can act, within its type; with type [Any] without limits. *)
Theorem C175_can : forall pure_id hash l p m ty at_ e c, holds (y_record pure_id hash l) p m ty 0 ->
  (forall n, holds (y_record pure_id hash l) p m ty n -> n = 0) ->
  (let s := y_end pure_id hash l in let s0 := Yst at_ (y_proxies s) (y_ann s) (y_free s) (y_held s) (y_others s) in
   ystep_run pure_id hash s (YTx at_ e m (YProxy p (Some ty) c)) =
   match yrun pure_id hash e (proxied_filter ty) p c s0 with Some (s', r) => (s', YActed p m ty 0 :: r) | None => (s0, [YActed p m ty 0]) end) /\
  (forall k, proxied_filter Any k = true).
Proof. intros pure_id hash l p m ty at_ e c H Hu. split; [exact (can_act _ _ _ _ _ _ _ _ _ H Hu)|exact any_all]. Qed.
Print Assumptions C175_can.

(** The account of [k_short]: 1 made it, lets 3 use it, 2 gets nowhere; 3 too, once it is closed. *)
Definition k_used : list ystep :=
  [YMoney 1 1000000000000; YMoney k_pure 1000000000000; YTx (2, 1) k_env 1 (YCreate Any 0 0); YTx (3, 1) k_env 1 (YProxy k_pure None (YAdd 3 NonTransfer 0));
   YTx (4, 1) k_env 2 (YProxy k_pure None (YOther (ROther 7 1))); YTx (4, 2) k_env 3 (YProxy k_pure None (YOther (ROther 7 1)));
   YTx (5, 1) k_env 1 (YProxy k_pure None (YKill 1 Any 0 (2, 1))); YTx (6, 1) k_env 3 (YProxy k_pure None (YOther (ROther 7 1)))].
Example C175_case : y_record k_id k_hash k_used =
  [YCreated 1 k_pure Any 0 0 (2, 1); YActed k_pure 1 Any 0; YAdded k_pure 3 NonTransfer 0; YActed k_pure 3 NonTransfer 0; YDid k_pure (ROther 7 1);
   YActed k_pure 1 Any 0; YKilled 1 k_pure] /\ ids_differ k_id.
Proof. split; [vm_compute; reflexivity|exact k_id_differ]. Qed.

(* ------------------------------------------------------------------ *)
(** * C176: who makes an account without keys can close it and have the deposit back *)

(** Refuted: made for any type of proxy but [Any], it is never closed, whatever anyone signs. *)
Theorem C176_close_refuted : forall pure_id hash l m p ty n i a, ids_differ pure_id -> YCreated m p ty n i a ∈ y_record pure_id hash l -> ty <> Any ->
  ~ signs l p -> forall m', YKilled m' p ∉ y_record pure_id hash l.
Proof. exact never_closed. Qed.
Print Assumptions C176_close_refuted.
(** What holds: made for [Any] without a delay, its maker can close it while they hold that proxy, and has back what the account's proxies
    cost by then. *)
Theorem C176_close_partial : forall pure_id hash l m p ty i a at_ e, p = pure_id m a ty i -> holds (y_record pure_id hash l) p m Any 0 ->
  (forall n, holds (y_record pure_id hash l) p m Any n -> n = 0) ->
  let s := y_end pure_id hash l in let r := ystep_run pure_id hash s (YTx at_ e m (YProxy p (Some Any) (YKill m ty i a))) in
  snd r = [YActed p m Any 0; YKilled m p] /\ yproxies (fst r) p = [] /\
  held_of (fst r) m = held_of s m - proxies_cost (length (yproxies s p)) /\ free_of (fst r) m + held_of (fst r) m = free_of s m + held_of s m.
Proof. exact closes_it. Qed.
Print Assumptions C176_close_partial.

(** Of [NonTransfer] it can be made, used, but not closed; of [Any] it can. *)
Definition k_open : list ystep := [YMoney 1 1000000000000; YTx (2, 1) k_env 1 (YCreate NonTransfer 0 0); YTx (2, 2) k_env 1 (YCreate Any 0 0)].
Example C176_case : let l := k_open ++ [YTx (3, 1) k_env 1 (YProxy (k_id 1 (2, 1) NonTransfer 0) None (YKill 1 NonTransfer 0 (2, 1)))] in
  y_record k_id k_hash l = [YCreated 1 (k_id 1 (2, 1) NonTransfer 0) NonTransfer 0 0 (2, 1); YCreated 1 (k_id 1 (2, 2) Any 0) Any 0 0 (2, 2);
    YActed (k_id 1 (2, 1) NonTransfer 0) 1 NonTransfer 0] /\
  held_of (y_end k_id k_hash l) 1 = 2 * proxies_cost 1 /\ holds (y_record k_id k_hash l) (k_id 1 (2, 2) Any 0) 1 Any 0 /\
  (forall n, holds (y_record k_id k_hash l) (k_id 1 (2, 2) Any 0) 1 Any n -> n = 0).
Proof.
  cbv zeta. split; [vm_compute; reflexivity|]. split; [vm_compute; reflexivity|].
  set (l := k_open ++ _). assert (yproxies (y_end k_id k_hash l) (k_id 1 (2, 2) Any 0) = [(1, Any, 0)]) as E by (vm_compute; reflexivity). split.
  - apply proxies_hold. rewrite E. left.
  - intros n H. apply proxies_hold in H. rewrite E in H. apply elem_of_list_singleton in H. injection H as ->. reflexivity.
Qed.

(* ------------------------------------------------------------------ *)
(** C172 (PropsMulti.v): what opening an operation costs: 20.088 cents, and 0.032 for every member who has to agree. *)
Theorem C172_deposit : forall t, MultiModel.multi_deposit t = 20 * CENTS + (88 + 32 * t) * MILLICENTS.
Proof.
  intros t. unfold MultiModel.multi_deposit. replace (deposit 1 88) with 6695999964 by (vm_compute; reflexivity). replace (deposit 0 32) with 10666656 by (vm_compute; reflexivity).
  replace CENTS with 333333333 by (vm_compute; reflexivity). replace MILLICENTS with 333333 by (vm_compute; reflexivity). lia.
Qed.
Print Assumptions C172_deposit.
