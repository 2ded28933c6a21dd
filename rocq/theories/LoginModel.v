(** Logging in with a pass: runtime/kreivo/src/configuration/system_support.rs:126-222, with pallet_pass and pass_webauthn (dependencies) as far as
    the challenge goes. *)
From stdpp Require Import gmap.
From Verif Require Import Base RuntimeModel.
Open Scope N_scope.

(** A credential: the user and the device it is for, the block it refers to ([Context = BlockNumber], line 138), the challenge and the device's
    signature (its other parts, authenticator data and client data, are left out). *)
Record credential := Credential { cr_user : N; cr_device : N; cr_context : N; cr_challenge : bytes; cr_signature : N }.

(** [pl_devices]: the key of a user's device; [pl_hashes]: the hashes of past blocks (pruning of old ones is left out); [pl_logins]: who was
    logged in, for which user, in which block, last first (how long sessions last is left out). *)
Record passes := Passes { pl_devices : gmap (N * N) N; pl_hashes : gmap N bytes; pl_now : N; pl_logins : list (N * N * N) }.

(** pallet_pass [authenticate] (dependency): the signer of the transaction becomes a session key of the user if the device's credential is
    valid, that is ([PassAuthenticator], line 151) its challenge is (line 144) and the signature over it is the device's; [valid] is whether it is. *)
Definition login (valid : N -> bytes -> N -> bool) (s : passes) (who : N) (c : credential) : option passes :=
  key ← pl_devices s !! (cr_user c, cr_device c);
  if check_challenge (fun n => pl_hashes s !! n) (pl_now s) (cr_context c) (cr_challenge c) && valid key (cr_challenge c) (cr_signature c)
  then Some (Passes (pl_devices s) (pl_hashes s) (pl_now s) ((who, cr_user c, pl_now s) :: pl_logins s)) else None.

(** What happens: somebody tries to log in; a device is added; a block with this hash ends (frame_system keeps the hash of a block from the next on). *)
Inductive pstep := PLogin (who : N) (c : credential) | PDevice (user device key : N) | PBlock (hash : bytes).
Definition pass_step (valid : N -> bytes -> N -> bool) (s : passes) (x : pstep) : passes :=
  match x with
  | PLogin who c => default s (login valid s who c)
  | PDevice user device key =>
      match pl_devices s !! (user, device) with
      | None => Passes (<[(user, device) := key]> (pl_devices s)) (pl_hashes s) (pl_now s) (pl_logins s)
      | Some _ => s
      end
  | PBlock h => Passes (pl_devices s) (<[pl_now s := h]> (pl_hashes s)) (pl_now s + 1) (pl_logins s)
  end.
Definition pass_run (valid : N -> bytes -> N -> bool) (s : passes) (l : list pstep) : passes := fold_left (pass_step valid) l s.
Definition pass_start : passes := Passes ∅ ∅ 0 [].
