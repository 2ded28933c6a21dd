(** What the properties about memberships as items (C165, C166) say. *)
From stdpp Require Import gmap.
From Verif Require Import Base XcmTypes OriginTypes AccountsModel CommunitiesModel TracksModel ManagerModel MarketModel.
Open Scope N_scope.

(** The item [key] and who owns it. *)
Notation owned s key a := (exists price, mg_items s !! key = Some (Item a price)).

(** Step [x] is the call [k] in the name of account [a]: signed by it, or dispatched as it by whoever manages the community whose account
    it is. *)
Definition in_name (c : mconfig) (s : mstate) (x : kstep) (a : N) (k : ncall) : Prop :=
  (exists e, x = KNft e (OSigned a) k) \/
  (exists e o g, x = KAs e o k /\ cc_mgmt_origin (mc_c c) (mg_c s) o = Some g /\ a = cc_account (mc_c c) g).

(** Step [x] sells item [key] of [seller] for [price]: somebody else who bids that much or more gets it and pays the price to the seller; no
    other account's balance changes. *)
Definition sells (c : mconfig) (s : mstate) (x : kstep) (key : N * N) (seller price : N) : Prop :=
  exists buyer bid, in_name c s x buyer (NBuy (fst key) (snd key) bid) /\ buyer <> seller /\ price <= bid /\
    let s' := kstep_run c s x in
    mg_items s' !! key = Some (Item buyer None) /\
    price <= balance (mg_c s) buyer /\ balance (mg_c s') buyer = balance (mg_c s) buyer - price /\
    balance (mg_c s') seller = balance (mg_c s) seller + price /\
    (forall a, a <> buyer -> a <> seller -> balance (mg_c s') a = balance (mg_c s) a).

(** In a history beginning at [s], no step is a call in the name of [a]. *)
Fixpoint nobody_as (c : mconfig) (a : N) (s : mstate) (l : list kstep) : Prop :=
  match l with
  | [] => True
  | x :: r => (forall k, ~ in_name c s x a k) /\ nobody_as c a (kstep_run c s x) r
  end.

(** Step [x] is a successful creation of memberships, [id] among them, by an origin that may. *)
Definition creates (c : mconfig) (s : mstate) (x : kstep) (id : N) : Prop :=
  exists e o amount start price, x = KManager (MCreateMemberships e o amount start price) /\ mc_create_origin c o <> None /\
    mg_items s !! (mc_collection c, id) = None /\ mg_items (kstep_run c s x) !! (mc_collection c, id) = Some (Item (mc_owner c) (Some price)).
