(** Model of memberships as items that are traded: the memberships on sale of pallet_communities_manager and the calls of pallet_nfts
    (Instance2, dependency, from memory) that Kreivo's configuration leaves open to everyone. *)
From stdpp Require Import gmap.
From Verif Require Import Base XcmTypes OriginTypes AccountsModel CommunitiesModel TracksModel ManagerModel.
Open Scope N_scope.

(** The calls of pallet_nfts: [mint], [set_price], [buy_item], [transfer], [burn] and [transfer_ownership]. Not modelled: offers for one buyer
    only, approvals to transfer for an owner, swaps, tips and pre-signed mints. *)
Inductive ncall :=
| NMint (coll id to : N)
| NSetPrice (coll id : N) (price : option N)
| NBuy (coll id bid : N)
| NTransfer (coll id to : N)
| NBurn (coll id : N)
| NGive (coll to : N).

(** Whether transfers of the native token are accepted, and whether pallet_nfts accepts a call as far as not decided by the state. *)
Record nenv := NEnv { ne_c : cenv; ne_ok : ncall -> bool }.

(** A call of pallet_nfts signed by [who]. The settings of collections and items are the defaults
    (pallets/communities-manager/src/lib.rs:171-175,212: everything enabled, minting for the issuer), no item is locked
    (runtime/kreivo/src/communities/memberships.rs:20 [Locker]) and collections and items cost no deposit (lines 22-23). The owner of a
    collection stands for its team: owner, admin and issuer are one account when it is created (lib.rs:168-170). Buying pays the price,
    not the bid, with [KeepAlive]; who gets an item gets it without a price. *)
Definition nft_call (e : nenv) (s : mstate) (who : N) (k : ncall) : option mstate :=
  if ne_ok e k then
    match k with
    | NMint coll id to =>
        match mg_collections s !! coll, mg_items s !! (coll, id) with
        | Some issuer, None => if issuer =? who then Some (mset_items (<[(coll, id) := Item to None]> (mg_items s)) s) else None
        | _, _ => None
        end
    | NSetPrice coll id price =>
        match mg_items s !! (coll, id) with
        | Some x => if it_owner x =? who then Some (mset_items (<[(coll, id) := Item who price]> (mg_items s)) s) else None
        | None => None
        end
    | NBuy coll id bid =>
        match mg_items s !! (coll, id) with
        | Some (Item seller (Some price)) =>
            if (seller =? who) || (bid <? price) then None else
            match transfer (ne_c e) (mg_c s) who seller price with
            | COk c' => Some (mset_items (<[(coll, id) := Item who None]> (mg_items s)) (mset_c c' s))
            | CErr _ => None
            end
        | _ => None
        end
    | NTransfer coll id to =>
        match mg_items s !! (coll, id) with
        | Some x => if it_owner x =? who then Some (mset_items (<[(coll, id) := Item to None]> (mg_items s)) s) else None
        | None => None
        end
    | NBurn coll id =>
        match mg_items s !! (coll, id) with
        | Some x => if it_owner x =? who then Some (mset_items (delete (coll, id) (mg_items s)) s) else None
        | None => None
        end
    | NGive coll to =>
        match mg_collections s !! coll with
        | Some owner => if owner =? who then Some (mset_collections (<[coll := to]> (mg_collections s)) s) else None
        | None => None
        end
    end
  else None.

(** What happens: the steps of ManagerModel.v; calls of pallet_nfts, signed ([KNft]) or dispatched as a community's account
    (pallets/communities/src/lib.rs:569-572 [dispatch_as_account], [KAs]); and root creating a collection
    (runtime/kreivo/src/communities/memberships.rs:17-19 [ForceOrigin], [CreateOrigin]; pallet_nfts takes the next id, here any free one). *)
Inductive kstep :=
| KManager (x : mstep)
| KNft (e : nenv) (o : origin) (k : ncall)
| KAs (e : nenv) (o : origin) (k : ncall)
| KCreate (coll owner : N).

(** A call without its collection is refused: pallet_nfts [mint_into] (UnknownCollection); ManagerModel.v leaves this to its environment. *)
Definition kstep_run (c : mconfig) (s : mstate) (x : kstep) : mstate :=
  match x with
  | KManager (MCreateMemberships e o n i p) =>
      match mg_collections s !! mc_collection c with Some _ => mstep_run c s (MCreateMemberships e o n i p) | None => s end
  | KManager x => mstep_run c s x
  | KNft e o k => match o with OSigned who => default s (nft_call e s who k) | _ => s end
  | KAs e o k =>
      match dispatch_as_account (mc_c c) (mg_c s) o with
      | Some (OSigned who) => default s (nft_call e s who k)
      | _ => s
      end
  | KCreate coll owner =>
      match mg_collections s !! coll with None => mset_collections (<[coll := owner]> (mg_collections s)) s | Some _ => s end
  end.
Definition krun (c : mconfig) (s : mstate) (l : list kstep) : mstate := fold_left (kstep_run c) l s.
