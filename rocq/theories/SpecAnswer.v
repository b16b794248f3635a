(** * SpecAnswer: what the miner of examples/setup_connection.rs prints for the bytes it has read. *)
From Coq Require Import Strings.String.
From Verif Require Import Base Types Messages Frame SpecWire SpecTypes SpecPool.
Local Open Scope N_scope.
Local Open Scope list_scope.

Definition received_line : bytes := list_byte_of_string "Miner: received message from Pool".
(** The line for the flags 0, 1, 2, 3. *)
Definition flags_line (flags : N) : bytes :=
  list_byte_of_string
    ("Miner: Received a SetupConnectionSuccess message with feature flags supported by the Mining Pool: " ++
     match flags with
     | 0 => "NONE"
     | 1 => "REQUIRES_FIXED_VERSION"
     | 2 => "REQUIRES_EXTENDED_CHANNELS"
     | _ => "REQUIRES_FIXED_VERSION | REQUIRES_EXTENDED_CHANNELS"
     end)%string.

(** The printed lines and whether the program panics. *)
Inductive miner_shows (buffer : bytes) : list bytes * bool -> Prop :=
| shows_flags : forall n version flags rest, 6 <= n <= 1018 -> version < 2 ^ 16 -> flags < 4 ->
    wire buffer = [0; 0; 1] ++ spec_le 3 n ++ spec_le 2 version ++ spec_le 4 flags ++ rest ->
    miner_shows buffer ([received_line; flags_line flags], false)
| shows_nothing : forall m n, spec_decode_frame buffer = Ok (m, n) -> m_type m <> MT_SetupConnectionSuccess ->
    miner_shows buffer ([received_line], false)
| shows_bad_frame : forall e, spec_decode_frame buffer = Err e -> miner_shows buffer ([received_line], true)
| shows_short : forall n rest, n < 6 -> wire buffer = [0; 0; 1] ++ spec_le 3 n ++ rest ->
    miner_shows buffer ([received_line], true)
| shows_bad_flags : forall n version flags rest, 6 <= n <= 1018 -> version < 2 ^ 16 -> 4 <= flags < 2 ^ 32 ->
    wire buffer = [0; 0; 1] ++ spec_le 3 n ++ spec_le 2 version ++ spec_le 4 flags ++ rest ->
    miner_shows buffer ([received_line], true).

(** What is shown when only the first [i] of the 12 bytes of the pool's answer are read. *)
Definition cut_shows (i flags : N) : list bytes * bool :=
  if i <=? 2 then ([received_line], false)
  else if i =? 3 then ([received_line], true)
  else if i <=? 8 then ([received_line; flags_line 0], false)
  else ([received_line; flags_line flags], false).
