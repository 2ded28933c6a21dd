(** What calls of pallet_communities declare to cost, how many vote locks they read, and what is charged for a call dispatched as a
    community's account. *)
From stdpp Require Import gmap.
From Verif Require Import Base XcmTypes OriginTypes AccountsModel CommunitiesModel XcmConfigModel XcmInstrModel XcmWeightsModel.
Open Scope N_scope.

(* ------------------------------------------------------------------ *)
(** * Declared weights *)

(** runtime/kreivo/src/weights/pallet_communities.rs:35-255, chosen per call by pallets/communities/src/lib.rs:374 [#[pallet::call(weight(..))]];
    the time per read and write is that of [bench]. *)
Definition w_create : weight := bench 60467000 4087 3 3.
Definition w_set_admin_origin : weight := bench 57312000 4087 2 2.
Definition w_set_decision_method : weight := bench 57754000 3689 2 2.
Definition w_add_member : weight := bench 372808000 9846 13 11.
Definition w_remove_member : weight := bench 528792000 15750 15 15.
Definition w_promote : weight := bench 223142000 6894 4 3.
Definition w_demote : weight := bench 180040000 6894 4 3.
Definition w_vote : weight := bench 502488000 6148 10 6.
Definition w_remove_vote : weight := bench 238003000 4365 5 2.
Definition w_unlock : weight := bench 224360000 8123 6 3.
Definition w_dispatch_as_account : weight := bench 37927000 3484 1 0.

Definition ccall_weight (k : ccall) : weight :=
  match k with
  | CCreate _ _ => w_create
  | CSetAdmin _ => w_set_admin_origin
  | CAddMember _ => w_add_member
  | CRemoveMember _ _ => w_remove_member
  | CPromote _ => w_promote
  | CDemote _ => w_demote
  | CSetMethod _ _ => w_set_decision_method
  | CVote _ _ _ => w_vote
  | CRemoveVote _ _ => w_remove_vote
  | CUnlock _ => w_unlock
  end.

(* ------------------------------------------------------------------ *)
(** * Vote locks read *)

(** [CommunityVoteLocks::iter_prefix_values(who)]: the values under one account, each read from storage as the iterator advances; the
    order stands for the unspecified storage order. *)
Definition locks_under (s : cstate) (who : N) : list vote := snd <$> filter (fun x => x.1.1 = who) (map_to_list (c_locks s)).

(** pallets/communities/src/functions.rs:166-192: removing a lock goes through all that remain under the account, for a vote with tokens. *)
Definition remove_lock_reads (s : cstate) (who p : N) (v : vote) : N :=
  match vote_lock v with
  | Some _ => N.of_nat (length (locks_under (set_locks (delete (who, p) (c_locks s)) s) who))
  | None => 0
  end.

(** pallets/communities/src/functions.rs:115-139 [try_remove_vote]: up to the update of the locks no lock is read. *)
Definition try_remove_vote_reads (s : cstate) (g m p : N) : N :=
  match c_polls s !! p with
  | Some (Ongoing _ class) =>
      if g =? class then
        match c_votes s !! (p, m) with
        | Some (v, voter) => remove_lock_reads s voter p v
        | None => 0
        end
      else 0
  | _ => 0
  end.

(** pallets/communities/src/lib.rs:510-558: the vote locks that [vote], [remove_vote] and [unlock] go through. The lock that [unlock] looks up
    by its key is not counted. *)
Definition locks_read (s : cstate) (o : origin) (k : ccall) : N :=
  match ensure_signed o with
  | Some who =>
      match k with
      | CVote m p v =>
          if 0 <? vote_weight v then
            match check_membership s who m, c_votes s !! (p, m) with
            | Some g, Some _ => try_remove_vote_reads s g m p
            | _, _ => 0
            end
          else 0
      | CRemoveVote m p => match check_membership s who m with Some g => try_remove_vote_reads s g m p | None => 0 end
      | CUnlock p =>
          match c_polls s !! p with
          | Some (Ongoing _ _) => 0
          | _ => match c_locks s !! (who, p) with Some v => remove_lock_reads s who p v | None => 0 end
          end
      | _ => 0
      end
  | None => 0
  end.

(* ------------------------------------------------------------------ *)
(** * What is charged for a call *)

(** frame_support [DispatchInfo] (dependency, without the class): the weight a call declares and whether it declares to be free. *)
Record call_info := CallInfo { ci_weight : weight; ci_free : bool }.
(** frame_support [PostDispatchInfo] (dependency): the weight used if the call says so, and whether it asks to be free. *)
Record post_info := PostInfo { po_weight : option weight; po_free : bool }.
(** [DispatchResultWithPostInfo] (dependency): success or failure, either with the information above. *)
Inductive call_result := RanOk (p : post_info) | RanErr (p : post_info).
(** [From<DispatchError> for DispatchErrorWithPostInfo] (dependency): nothing is known of the weight, and it is to be paid for. *)
Definition default_post : post_info := PostInfo None false.
Definition result_post (r : call_result) : post_info := match r with RanOk p | RanErr p => p end.

(** [PostDispatchInfo::calc_actual_weight], [pays_fee] (dependency), applied by [extract_actual_weight], [extract_actual_pays_fee] *)
Definition charged_weight (i : call_info) (r : call_result) : weight :=
  match po_weight (result_post r) with Some w => weight_min w (ci_weight i) | None => ci_weight i end.
Definition charged_free (i : call_info) (r : call_result) : bool := ci_free i || po_free (result_post r).

(** pallets/communities/src/lib.rs:562-568: what [dispatch_as_account] declares; a pair of weight and class declares that fees are paid. *)
Definition as_account_info (inner : call_info) : call_info :=
  CallInfo (weight_sat_add (weight_sat_add w_dispatch_as_account (bench 0 0 1 1)) (ci_weight inner)) false.
(** pallets/communities/src/functions.rs:203-212: what it returns when its origin is accepted; [e.error] drops what a failing call says of
    its weight. *)
Definition as_account_result (inner : call_result) : call_result :=
  match inner with RanOk p => RanOk p | RanErr _ => RanErr default_post end.
(** pallets/communities/src/lib.rs:569-572: the origin is checked first. *)
Definition as_account_ran (c : cconfig) (s : cstate) (o : origin) (inner : call_result) : call_result :=
  match dispatch_as_account c s o with Some _ => as_account_result inner | None => RanErr default_post end.
