(** * Channels: several calls of [new_channel_id] (stratumv2/src/network/channel.rs:12-14), one after another.
    Definitions only.

    [ChannelManager] (channel.rs:32-45) keeps the channels of a connection under their ids; nothing in /repo puts a
    channel there, and [new_channel_id] takes no argument, so it cannot look. *)
From Verif Require Import Base Network.
Local Open Scope N_scope.

(** [sample_single] of [Network] (rand 0.7, not part of /repo), also returning the draws that are left. *)
Fixpoint sample_left (low range zone : N) (draws : list N) : option (N * list N) :=
  match draws with
  | [] => None
  | v :: draws' =>
      let hi := v * range / 2 ^ 32 in
      let lo := v * range mod 2 ^ 32 in
      if lo <=? zone then Some ((low + hi) mod 2 ^ 32, draws') else sample_left low range zone draws'
  end.
(** [gen_range] of [Network], also returning the draws that are left. *)
Definition gen_range_left (low high : N) (draws : list N) : outcome Empty_set (option (N * list N)) :=
  if low <? high then
    let range := high - low in
    let zone := (N.shiftl range (32 - N.size range) mod 2 ^ 32 + 2 ^ 32 - 1) mod 2 ^ 32 in
    Ok (sample_left low range zone draws)
  else Panic.
(** channel.rs:12-14. *)
Definition new_channel_id_left (draws : list N) : outcome Empty_set (option (N * list N)) :=
  gen_range_left 0 (2 ^ 32 - 1) draws.
(** [n] calls of channel.rs:12-14 on one generator, with the ids in the order of the calls. *)
Fixpoint channel_ids (n : nat) (draws : list N) : outcome Empty_set (option (list N)) :=
  match n with
  | O => Ok (Some [])
  | S n' =>
      match new_channel_id_left draws with
      | Ok (Some (id, draws')) =>
          match channel_ids n' draws' with
          | Ok (Some ids) => Ok (Some (id :: ids))
          | Ok None => Ok None
          | Err e => Err e
          | Panic => Panic
          end
      | Ok None => Ok None
      | Err e => Err e
      | Panic => Panic
      end
  end.
