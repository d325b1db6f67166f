(** HMAC_DRBG with SHA-256, written from NIST SP 800-90A, section 10.1.2
    (no personalization string, no additional input). *)
From Verif Require Import Base SpecSHA.

(** Working state: Key, V, reseed_counter. *)
Notation drbg_state := (list N * list N * N)%type (only parsing).

(** 10.1.2.2 HMAC_DRBG_Update(provided_data, K, V) *)
Definition HMAC_DRBG_Update (data K V : bytes) : bytes * bytes :=
  let K := hmac K (V ++ [0x00] ++ data) in
  let V := hmac K V in
  match data with
  | [] => (K, V)
  | _ => let K := hmac K (V ++ [0x01] ++ data) in
         let V := hmac K V in (K, V)
  end.
(** 10.1.2.3 instantiate with seed_material = entropy_input || nonce *)
Definition HMAC_DRBG_Instantiate (seed : bytes) : drbg_state :=
  let '(K, V) := HMAC_DRBG_Update seed (repeat 0x00 32) (repeat 0x01 32) in (K, V, 1).
(** 10.1.2.4 reseed *)
Definition HMAC_DRBG_Reseed (st : drbg_state) (seed : bytes) : drbg_state :=
  let '(K, V, _) := st in
  let '(K, V) := HMAC_DRBG_Update seed K V in (K, V, 1).
(** 10.1.2.5 steps 3-4: V = HMAC(Key, V); temp = temp || V, [n] times: temp, V *)
Fixpoint drbg_temp (n : nat) (K V : bytes) : bytes * bytes :=
  match n with
  | O => ([], V)
  | S m => let V' := hmac K V in
           let '(t, V'') := drbg_temp m K V' in (V' ++ t, V'')
  end.
(** 10.1.2.5 generate [n] bytes: returned bits and new working state *)
Definition HMAC_DRBG_Generate (st : drbg_state) (n : nat) : bytes * drbg_state :=
  let '(K, V, ctr) := st in
  let '(temp, V) := drbg_temp ((n + 31) / 32) K V in
  let '(K, V) := HMAC_DRBG_Update [] K V in
  (firstn n temp, (K, V, ctr + 1)).
(** Not in the standard: extra input mixed in by the update function only. *)
Definition HMAC_DRBG_Mix (st : drbg_state) (extra : bytes) : drbg_state :=
  let '(K, V, ctr) := st in
  let '(K, V) := HMAC_DRBG_Update extra K V in (K, V, ctr).

(** A run of the generator: the operations performed, in order. *)
Inductive drbg_op :=
| Op_instantiate (seed : bytes)
| Op_reseed (seed : bytes)
| Op_mix (extra : bytes)
| Op_generate (n : nat).

(** Executing operations: the state and all bytes returned. [None] as state:
    not instantiated; then only instantiation is possible. *)
Fixpoint drbg_run (st : option drbg_state) (ops : list drbg_op) : option (option drbg_state * bytes) :=
  match ops with
  | [] => Some (st, [])
  | op :: ops' =>
      match op, st with
      | Op_instantiate seed, None => drbg_run (Some (HMAC_DRBG_Instantiate seed)) ops'
      | Op_reseed seed, Some s => drbg_run (Some (HMAC_DRBG_Reseed s seed)) ops'
      | Op_mix extra, Some s => drbg_run (Some (HMAC_DRBG_Mix s extra)) ops'
      | Op_generate n, Some s =>
          let '(out, s) := HMAC_DRBG_Generate s n in
          match drbg_run (Some s) ops' with
          | Some (s', rest) => Some (s', out ++ rest)
          | None => None
          end
      | _, _ => None
      end
  end.
(** Number of generate operations since the last (re)seed never exceeds 256,
    starting from [c] generates done; no request exceeds 65536 bytes. *)
Fixpoint drbg_limits (c : nat) (ops : list drbg_op) : Prop :=
  match ops with
  | [] => True
  | Op_instantiate _ :: ops' => drbg_limits 0 ops'
  | Op_reseed _ :: ops' => drbg_limits 0 ops'
  | Op_mix _ :: ops' => drbg_limits c ops'
  | Op_generate n :: ops' => N.of_nat n <= 65536 /\ (c < 256)%nat /\ drbg_limits (S c) ops'
  end.
(** The seeds used, in order. *)
Fixpoint drbg_seeds (ops : list drbg_op) : list bytes :=
  match ops with
  | [] => []
  | Op_instantiate s :: ops' | Op_reseed s :: ops' => s :: drbg_seeds ops'
  | _ :: ops' => drbg_seeds ops'
  end.
