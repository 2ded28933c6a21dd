(** Vocabulary for what the chain's members and communities rely on in its governance. *)
From stdpp Require Import gmap.
From Verif Require Import Base XcmTypes OriginTypes AccountsModel CommunitiesModel CommunitiesSpec TracksModel TracksSpec ManagerModel ManagerSpec XcmConfigModel
  GovernanceModel.
Open Scope N_scope.

(** Root and the custom origins: what the collective decides about. *)
Definition privileged (o : origin) : Prop := o = ORoot \/ exists c, o = OCustom c.
Definition signed (o : origin) : Prop := exists a, o = OSigned a.

(** The rank of a member of the collective; members of rank 1 and more vote. *)
Definition collective_rank (s : gstate) (who : N) : option N := mg_collective (gv_m s) !! who.
Definition votes_in_collective (s : gstate) (who : N) : Prop := exists r, collective_rank s who = Some r /\ 1 <= r.

(** The calls about the rank of [who]. *)
Definition ranks_call (k : gcall) (who : N) : Prop :=
  k = GPromote who \/ k = GDemote who \/ (exists r, k = GRemove who r) \/ (exists w, k = GExchange who w) \/ exists w, k = GExchange w who.

(** The top-level dispatch a step amounts to, if any: origin and call. *)
Definition step_dispatch (s : gstate) (x : gstep) : option (origin * gcall) :=
  match x with
  | GTx _ who k => Some (OSigned who, k)
  | GRemote _ l kind k => match transact_origin l kind with Some r => Some (runtime_origin r, k) | None => None end
  | GFire _ n => match gv_agenda s !! n with Some t => if tk_due t <=? gv_now s then Some (tk_origin t, tk_call t) else None | None => None end
  | _ => None
  end.
(** The decision that step [x] carries out in state [s]. *)
Definition carries_out (s : gstate) (x : gstep) (i : inst) (p : N) : Prop :=
  exists e n t, x = GFire e n /\ gv_agenda s !! n = Some t /\ tk_due t <= gv_now s /\ tk_source t = Some (i, p).

(** Dispatching [k] with origin [o] in state [s], call [k'] comes to be dispatched with origin [o'] in state [s']. *)
Inductive executes (e : genv) : gstate -> origin -> gcall -> gstate -> origin -> gcall -> Prop :=
| ex_here s o k : executes e s o k s o k
| ex_community s o g k s' o' k' :
    cc_mgmt_origin kreivo_communities (mg_c (gv_m s)) o = Some g ->
    executes e s (OSigned (community_account g)) k s' o' k' -> executes e s o (GAsCommunity k) s' o' k'
| ex_dispatch_as s o1 k s' o' k' : executes e s o1 k s' o' k' -> executes e s ORoot (GDispatchAs o1 k) s' o' k'
| ex_batch_first s o k1 k2 s' o' k' : executes e s o k1 s' o' k' -> executes e s o (GBatch k1 k2) s' o' k'
| ex_batch_second s o k1 k2 s1 s' o' k' :
    g_call e s o k1 = Some s1 -> executes e s1 o k2 s' o' k' -> executes e s o (GBatch k1 k2) s' o' k'.

(** The same over steps; a task is taken off the agenda before it is dispatched. *)
Inductive happens (s : gstate) : gstep -> gstate -> origin -> gcall -> Prop :=
| hap_tx e who k s' o' k' : executes e s (OSigned who) k s' o' k' -> happens s (GTx e who k) s' o' k'
| hap_remote e l kind r k s' o' k' : transact_origin l kind = Some r ->
    executes e s (runtime_origin r) k s' o' k' -> happens s (GRemote e l kind k) s' o' k'
| hap_fire e n t s' o' k' : gv_agenda s !! n = Some t -> tk_due t <= gv_now s ->
    executes e (gset_agenda (delete n (gv_agenda s)) s) (tk_origin t) (tk_call t) s' o' k' -> happens s (GFire e n) s' o' k'.

(** What is decided outside during a step. *)
Definition gstep_env (x : gstep) : option genv :=
  match x with GTx e _ _ | GRemote e _ _ _ | GService e _ _ | GNext e _ _ | GFire e _ => Some e | _ => None end.

(** What dispatching [k] with origin [o] can lead to, now or by a task it schedules, whatever the state. *)
Inductive leads : origin -> gcall -> origin -> gcall -> Prop :=
| leads_here o k : leads o k o k
| leads_community o a k o' k' : leads (OSigned a) k o' k' -> leads o (GAsCommunity k) o' k'
| leads_dispatch_as o1 k o' k' : leads o1 k o' k' -> leads ORoot (GDispatchAs o1 k) o' k'
| leads_batch_first o k1 k2 o' k' : leads o k1 o' k' -> leads o (GBatch k1 k2) o' k'
| leads_batch_second o k1 k2 o' k' : leads o k2 o' k' -> leads o (GBatch k1 k2) o' k'
| leads_schedule n k o' k' : leads ORoot k o' k' -> leads ORoot (GSchedule n k) o' k'.

(** What was decided about, in which track. *)
Definition is_open (s : gstate) (i : inst) (p : N) (r : referendum) : Prop := gv_refs s !! (i, p) = Some (ROngoing r).
Definition ended (s : gstate) (i : inst) (p : N) (x : rstatus) : Prop :=
  gv_refs s !! (i, p) = Some x /\ forall r, x <> ROngoing r.

(** The part of the decision period of [ti] that [n] blocks are, in parts per billion. *)
Definition period_part (ti : track_info) (n : N) : N := perbill_from_rational (N.min n (ti_decision ti)) (ti_decision ti).
(** Looked at now, [n] blocks into its decision period, referendum [p] reaches the thresholds of its track. *)
Definition reaches (e : genv) (s : gstate) (i : inst) (p : N) (r : referendum) (n : N) : Prop :=
  exists t ti, gtally s i p = Some t /\ track_info_of s i (rf_track r) = Some ti /\
    approved ti (period_part ti n) (approval t) (gsupport e s i (rf_track r) t).

(** History [l] from [s0] has a point at which [p] was looked at and approved as [r]: it reached its thresholds and had been confirmed for
    as long as its track wants. *)
Definition approved_at (s : gstate) (e : genv) (i : inst) (p : N) (r : referendum) : Prop :=
  is_open s i p r /\
  (exists since until, rf_deciding r = Some (since, Some until) /\ until <= gv_now s /\ reaches e s i p r (gv_now s - since)).
(** Looking at [p] turns it from open, as [r], into approved. *)
Definition gets_approved (s : gstate) (e : genv) (i : inst) (p : N) (r : referendum) : Prop :=
  is_open s i p r /\ exists n, gv_refs (gstep_run s (GService e i p)) !! (i, p) = Some (RApproved n).
Definition was_approved (s0 : gstate) (l : list gstep) (i : inst) (p : N) (r : referendum) : Prop :=
  exists l1 e l2, l = l1 ++ GService e i p :: l2 /\ approved_at (grun s0 l1) e i p r /\
    gv_refs (grun s0 (l1 ++ [GService e i p])) !! (i, p) = Some (RApproved (gv_now (grun s0 l1))).

(** History [l] has a point at which referendum [p] was submitted, with this origin, call and moment of enactment, by [o]. *)
Definition was_submitted (s0 : gstate) (l : list gstep) (i : inst) (p : N) (o po : origin) (k : gcall) (w : moment) (s : gstate) : Prop :=
  exists l1 x l2, l = l1 ++ x :: l2 /\ happens (grun s0 l1) x s o (GSubmit i po k w) /\ p = gv_count s i.

(** Nobody is left who could vote in the collective, or has voted aye in one of its referenda that goes on, and no task is privileged. *)
Definition ungoverned (s : gstate) : Prop :=
  (forall who, ~ votes_in_collective s who) /\
  (forall p r t, is_open s Collective p r -> gv_tally s !! p = Some t -> ayes t = 0) /\
  (forall t, In t (gv_agenda s) -> ~ privileged (tk_origin t)).

(** Of the votes recorded for referendum [p] of the collective: the sum of [f aye votes] over them. *)
Definition cast_sum (s : gstate) (p : N) (f : bool -> N -> N) : N :=
  map_fold (fun pw v acc => (if pw.1 =? p then f v.1 v.2 else 0) + acc) 0 (gv_votes s).
Definition cast_ayes (s : gstate) (p : N) : N := cast_sum s p (fun b n => if b then n else 0).
Definition cast_nays (s : gstate) (p : N) : N := cast_sum s p (fun b n => if b then 0 else n).
Definition aye_voters (s : gstate) (p : N) : N := cast_sum s p (fun b _ => if b then 1 else 0).
Definition voters (s : gstate) (p : N) : N := cast_sum s p (fun _ _ => 1).

(** In history [l], [who] voted in the collective's referendum [p] while of rank [n]. *)
Definition has_voted (s0 : gstate) (l : list gstep) (p who : N) (aye : bool) (n : N) : Prop :=
  exists l1 x l2 s, l = l1 ++ x :: l2 /\ happens (grun s0 l1) x s (OSigned who) (GVote p aye) /\ collective_rank s who = Some n.
(** In history [l], [who] cast an aye in the referendum [p] of community [g], with a membership of it. *)
Definition member_aye (s0 : gstate) (l : list gstep) (g p who : N) : Prop :=
  exists l1 x l2 s m v y, l = l1 ++ x :: l2 /\ happens (grun s0 l1) x s (OSigned who) (GCommunityCall (CVote m p v)) /\
    (exists e s', g_call e s (OSigned who) (GCommunityCall (CVote m p v)) = Some s') /\
    says_aye v = true /\ c_members (mg_c (gv_m s)) !! m = Some y /\ m_group y = g /\ m_owner y = who.

(** During step [x] referendum [p] is looked at, in state [s1]: by the scheduler, or because its deposit is placed. *)
Definition looked (s : gstate) (x : gstep) (s1 : gstate) (e : genv) (i : inst) (p : N) : Prop :=
  gstep_env x = Some e /\
  (((x = GService e i p \/ x = GNext e i p) /\ s1 = s) \/
   exists o s2, happens s x s1 o (GPlaceDeposit i p) /\ g_call e s1 o (GPlaceDeposit i p) = Some s2).
(** In history [l], referendum [p], submitted in block [b] to track [t], was looked at in block [n] or before, when the preparation its track
    wanted was over. *)
Definition prepared (s0 : gstate) (l : list gstep) (i : inst) (p t b n : N) : Prop :=
  exists l1 x l2 s e ti, l = l1 ++ x :: l2 /\ looked (grun s0 l1) x s e i p /\ track_info_of s i t = Some ti /\
    b + ti_prepare ti <= gv_now s /\ gv_now s <= n.
(** In history [l], referendum [p], decided about since block [since], was looked at and reached its thresholds; [until] is the confirmation
    period of its track later; and every time the scheduler looked at it since it reached them again. *)
Definition confirmed (s0 : gstate) (l : list gstep) (i : inst) (p : N) (r : referendum) (since until : N) : Prop :=
  exists l1 x l2 s e ti, l = l1 ++ x :: l2 /\ looked (grun s0 l1) x s e i p /\ track_info_of s i (rf_track r) = Some ti /\
    since <= gv_now s /\ until = gv_now s + ti_confirm ti /\ reaches e s i p r (gv_now s - since) /\
    forall m1 e' m2, l2 = m1 ++ GService e' i p :: m2 ->
      let s' := grun s0 (l1 ++ x :: m1) in reaches e' s' i p r (gv_now s' - since).

(** Nobody but [who] does anything in this step. *)
Definition alone (who : N) (x : gstep) : Prop := match x with GTx _ w _ => w = who | GRemote _ _ _ _ | GOutside _ => False | _ => True end.
