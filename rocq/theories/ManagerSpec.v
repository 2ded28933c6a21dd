(** Vocabulary for what users of the communities manager and of community referenda rely on. *)
From stdpp Require Import gmap.
From Verif Require Import Base XcmTypes OriginTypes AccountsModel CommunitiesModel CommunitiesSpec TracksModel ManagerModel.
Open Scope N_scope.

(** Unicode scalar values, and their encoding in UTF-8 (RFC 3629). *)
Definition scalar_value (cp : N) : Prop := cp < 55296 \/ (57344 <= cp /\ cp < 1114112).
Definition utf8_char (cp : N) : list N :=
  if cp <? 128 then [cp]
  else if cp <? 2048 then [192 + cp / 64; 128 + cp mod 64]
  else if cp <? 65536 then [224 + cp / 4096; 128 + (cp / 64) mod 64; 128 + cp mod 64]
  else [240 + cp / 262144; 128 + (cp / 4096) mod 64; 128 + (cp / 64) mod 64; 128 + cp mod 64].
Definition utf8_text (l : list N) : Prop := exists cps, Forall scalar_value cps /\ l = concat (utf8_char <$> cps).

(** A state some history of a new chain leads to, on which memberships of collection 0 may have been set up first. *)
Definition mreachable (c : mconfig) (s : mstate) : Prop := exists l, s = mrun c m_empty l.

(** The account holds a membership of community [g]. *)
Definition holds_membership (s : mstate) (g who : N) : Prop :=
  exists m x, c_members (mg_c s) !! m = Some x /\ m_group x = g /\ m_owner x = who.

(** Everything a community comes with. *)
Definition complete (c : mconfig) (s : mstate) (id : N) : Prop :=
  mg_collections s !! id = Some (cc_account (mc_c c) id) /\
  (exists ti, mg_tracks s !! id = Some ti) /\
  mg_track_of s (OCommunity id None) = Some id /\
  mg_collective s !! cc_account (mc_c c) id = Some 0.

(** A deposit (amount, from, to) moves between native balances, and nobody else's changes. *)
Definition paid (deposit : option (N * N * N)) (s s' : cstate) : Prop :=
  match deposit with
  | None => forall a, balance s' a = balance s a
  | Some (n, from, to) =>
      n <= balance s from /\
      (from <> to -> balance s' from = balance s from - n /\ balance s' to = balance s to + n) /\
      (from = to -> balance s' from = balance s from) /\
      (forall a, a <> from -> a <> to -> balance s' a = balance s a)
  end.
