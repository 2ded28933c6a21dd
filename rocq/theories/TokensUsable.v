(** Holders can use their tokens: what C190 rests on. *)
From stdpp Require Import gmap.
From Coq Require Import Lia.
From Verif Require Import Base RuntimeModel TokensModel TokensSpec Tokens TokensApproved TokensSupply.
Open Scope N_scope.

Lemma holders_use l ok id a to n keep : let s := t_end l in
  in_state s id TLive -> account_state s id a = Some TOpen ->
  n + frozen_of s id a + least s id <= has s id a \/ (frozen_of s id a = 0 /\ keep = false /\ n <= has s id a) ->
  ((account_state s id to = Some TOpen \/ account_state s id to = Some TNoOut) /\ has s id to + has s id a <= u128_max) \/
  (~ holds_account s id to /\ least s id <= n /\ ok = true) ->
  goes_through s (TCall ok (Some a) (KTransfer id to n keep)).
Proof.
  cbv zeta. intros (e & Ee & Es) Ea Hn Ht. unfold goes_through. cbn [tstep_try tcall_run]. unfold transfer. destruct (N.eqb_spec n 0) as [->|Hn0]; [eauto|].
  unfold account_state in Ea. destruct (t_accounts (t_end l) !! (id, a)) as [c|] eqn:Ec; [|discriminate Ea]. injection Ea as Eo.
  assert (Hb : tc_balance c <= ta_supply e).
  { pose proof (backed_end l id) as B. rewrite Ee in B. rewrite B by (unfold is_destroying; rewrite Es; reflexivity). exact (held_ge _ _ _ _ Ec). }
  assert (Hl : t_locked (t_end l) !! (id, a) = None \/ n + frozen_of (t_end l) id a + ta_min e <= tc_balance c).
  { unfold least, has in Hn. rewrite Ee, Ec in Hn. destruct Hn as [Hn|(Hf & _)]; [right; exact Hn|left]. unfold frozen_of in Hf. destruct (t_locked (t_end l) !! (id, a)) as [v|] eqn:Ev; [|reflexivity]. pose proof (locked_end l _ _ Ev). cbn in Hf. lia. }
  unfold least, has in Hn. rewrite Ee, Ec in Hn. rewrite Ee.
  assert (exists r, reducible e id a keep (t_end l) = Some r /\ n <= r) as (r & Er & Hr).
  { unfold reducible. rewrite Es, Ec, Eo. eexists. split; [reflexivity|]. unfold frozen_of in *. destruct (t_locked (t_end l) !! (id, a)) as [v|].
    - change (default 0 (Some v)) with v in *. destruct Hl as [Hl|Hl]; [discriminate Hl|]. lia.
    - change (default 0 None) with 0 in *. destruct keep; destruct Hn as [Hn|(_ & Hk & Hn)]; try discriminate Hk; lia. }
  assert (exists m, prep_debit e id a n keep false (t_end l) = Some m /\ n <= m /\ m <= tc_balance c) as (m & Em & H1 & H2).
  { unfold prep_debit. rewrite Er, Ec. rewrite (N.min_r r n) by exact Hr. cbn [negb andb]. rewrite N.ltb_irrefl. destruct (N.eqb_spec n 0) as [Hz|_]; [contradiction|].
    assert (n <= tc_balance c) by (destruct Hn as [Hn|(_ & _ & Hn)]; lia).
    destruct (N.ltb_spec (tc_balance c - n) (ta_min e)) as [Hd|Hd]; [|eexists; split; [reflexivity|lia]].
    destruct keep; [destruct Hn as [Hn|(_ & Hk & _)]; [lia|discriminate Hk]|]. eexists. split; [reflexivity|lia]. }
  rewrite Em. assert (Ci : can_increase e id to m ok (t_end l) = true).
  { unfold can_increase. rewrite Es. unfold account_state, holds_account, has, least in Ht. rewrite Ec, Ee in Ht. destruct (t_accounts (t_end l) !! (id, to)) as [c'|].
    - destruct Ht as [(Hs & Hu)|(Hh & _)]; [|exfalso; apply Hh; discriminate]. cbn in Hs. destruct (tc_closed c'); [apply N.leb_le; lia|apply N.leb_le; lia|destruct Hs as [Hs|Hs]; discriminate Hs].
    - destruct Ht as [([Hs|Hs] & _)|(_ & Hm & ->)]; [discriminate Hs|discriminate Hs|]. rewrite andb_true_r. apply N.leb_le. lia. }
  rewrite Ci. cbn [andb]. destruct (a =? to); eauto.
Qed.
