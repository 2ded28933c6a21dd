(** Vocabulary for what users of proxies rely on. *)
From Verif Require Import Base XcmTypes OriginTypes ProxyModel.

(** The calls each type of proxy is meant for, besides batching and multisig. *)
Definition meant_for (t : proxy_type) (c : rcall) : Prop :=
  match t with
  | Any => True
  | NonTransfer => (forall b, c <> RBalances b) /\ (forall a, c <> RAssets a)
  | CancelProxy => c = RRejectAnnouncement
  | AssetsProxy => exists a, c = RAssets a
  | AssetOwner => c ∈ RAssets <$> [AsCreate; AsStartDestroy; AsDestroyAccounts; AsDestroyApprovals; AsFinishDestroy; AsTransferOwnership;
                                   AsSetTeam; AsSetMetadata; AsClearMetadata]
  | AssetManager => c ∈ RAssets <$> [AsMint; AsBurn; AsFreeze; AsThaw; AsFreezeAsset; AsThawAsset]
  | Collator => exists i, c = RCollatorSelection i
  end.
Definition utility_or_multisig (c : rcall) : Prop := is_utility c = true \/ is_multisig c = true.

(** Changes to an account's own proxies. *)
Definition changes_proxies (c : rcall) : Prop := (exists t, c = RAddProxy t \/ c = RRemoveProxy t) \/ c = RRemoveProxies \/ c = RKillPure.

(** The account's key is an ordinary one: it is not derived from other accounts. *)
Definition ordinary (dv : derivation) (a : N) : Prop := (forall w i, derivative_of dv w i <> a) /\ (forall w l, multi_of dv w l <> a).
