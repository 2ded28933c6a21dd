(** The instructions messages consist of: xcm v4 (dependency, stable2409). Only fungible assets are modelled; no transactor handles others. *)
From Verif Require Import Base XcmTypes OriginTypes XcmConfigModel.
From stdpp Require Import gmap.
Open Scope N_scope.

Notation xasset := (location * N)%type (only parsing).
Notation holding := (gmap location N) (only parsing).

(** xcm v4 [AssetFilter] (dependency); [nft] says whether non-fungible instances are meant. *)
Inductive xfilter :=
| FDefinite (l : list xasset)
| FAll
| FAllOf (k : location) (nft : bool)
| FAllCounted (n : nat)
| FAllOfCounted (k : location) (nft : bool) (n : nat).

(** xcm v4 [Instruction] (dependency), those that only send a message back, ... *)
Inductive send_kind := ReportError | ReportHolding | QueryPallet | ReportTransactStatus.
(** ... those whose handlers are not configured ([MessageExporter], [AssetLocker] are (): runtime/kreivo/src/xcm_config.rs:248,251), ... *)
Inductive unsupported_kind := ExportMessage | LockAsset | UnlockAsset | NoteUnlockable | RequestUnlock.
(** ... and those that touch neither origin, holding nor balances. *)
Inductive other_kind :=
| QueryResponse | SubscribeVersion | UnsubscribeVersion | ExpectAsset (l : list xasset) | ExpectOrigin | ExpectError | ExpectTransactStatus
| ExpectPallet | ClearTransactStatus | ClearError | SetTopic | ClearTopic | HrmpNewChannelOpenRequest | HrmpChannelAccepted | HrmpChannelClosing.

(** xcm v4 [Instruction] (dependency); message programs meant for other chains are left out, a call is a number, [XTransact] has the weight
    its sender allows for the call. *)
Inductive xinstr :=
| XWithdraw (l : list xasset)
| XReserveDeposited (l : list xasset)
| XReceiveTeleported (l : list xasset)
| XTransfer (l : list xasset) (dest : location)
| XTransferReserve (l : list xasset) (dest : location)
| XTransact (k : origin_kind) (most : weight) (call : N)
| XClearOrigin
| XDescend (js : list junction)
| XUniversalOrigin (j : junction)
| XAliasOrigin (l : location)
| XDeposit (f : xfilter) (dest : location)
| XDepositReserve (f : xfilter) (dest : location)
| XInitiateReserveWithdraw (f : xfilter)
| XInitiateTeleport (f : xfilter)
| XExchange (f : xfilter)
| XBuy (fee : xasset) (limit : option weight)
| XUnpaid (limit : option weight)
| XRefund
| XSetErrorHandler (p : list xinstr)
| XSetAppendix (p : list xinstr)
| XClaim (l : list xasset)
| XTrap
| XBurn (l : list xasset)
| XSetFeesMode (jit : bool)
| XSend (k : send_kind)
| XUnsupported (k : unsupported_kind)
| XOther (k : other_kind).
