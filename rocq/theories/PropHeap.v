(** * PropHeap: C134, what decoding reads and what it puts on the heap. *)
From Verif Require Import Base Codec Types Messages Frame Catalog Nest Heap SpecWire SpecTypes SpecNest SpecHeap NestProofs HeapProofs.

(** C134.  Whatever the bytes say, a decoder makes a number of reads that its type alone gives, and buffers for no more
    bytes than it has consumed, plus the text of the error; a value costs one copy of its variable part. *)
Theorem C134_decodes : forall t pf p ev p' o, rust_slice (p_bytes p) -> de_of_h t pf p = (ev, p', o) ->
  de_of t pf p = (p', o) /\ p_start p <= p_start p' /\ asks ev <= parts t /\
  match o with
  | Ok _ => asked ev = p_start p' - p_start p /\ asked ev = fixed_part t + buffered ev /\ asks ev = parts t
  | Err _ => buffered ev <= p_start p' - p_start p + longest_text
  | Panic => buffered ev <= p_start p' - p_start p
  end.
Proof. exact decode_costs. Qed.
Print Assumptions C134_decodes.
Theorem C134_value : forall t pf pre rest ev p' v, rust_slice (pre ++ rest) ->
  de_of_h t pf (cursor pre rest) = (ev, p', Ok v) -> len (lay t v) = fixed_part t + buffered ev.
Proof. exact decode_value. Qed.
Print Assumptions C134_value.
(** Declared messages nested to any depth. *)
Theorem C134_nested : forall A (s : shape A) pf p ev p' o, rust_slice (p_bytes p) -> shape_de_h s pf p = (ev, p', o) ->
  shape_de s pf p = (p', o) /\ p_start p <= p_start p' /\ asks ev <= shape_parts s /\
  match o with
  | Ok _ => asked ev = p_start p' - p_start p /\ asked ev = shape_fixed s + buffered ev /\ asks ev = shape_parts s
  | Err _ => buffered ev <= p_start p' - p_start p + longest_text
  | Panic => buffered ev <= p_start p' - p_start p
  end.
Proof. exact nest_costs. Qed.
Print Assumptions C134_nested.
Theorem C134_nested_value : forall A (s : shape A), storing s -> no_bool s -> forall pf pre rest ev p' v, rust_slice (pre ++ rest) ->
  shape_de_h s pf (cursor pre rest) = (ev, p', Ok v) -> len (shape_lay s v) = shape_fixed s + buffered ev.
Proof. exact nest_value. Qed.
Print Assumptions C134_nested_value.
(** Reading a frame and the message in it: at most two copies of the input. *)
Theorem C134_receive : forall k pf bs ev o, rust_slice bs -> receive_h k pf bs = (ev, o) ->
  o = obind (deserialize de_message pf bs) (unframe (frameable_of k) pf) /\ asks ev <= 19 /\
  match o with
  | Ok _ => buffered ev + 12 + fixed_part (T_msg k) <= 2 * len bs
  | _ => buffered ev <= 2 * len bs + longest_text
  end.
Proof. exact receive_costs. Qed.
Print Assumptions C134_receive.

(** A B0_16M that claims 16777215 bytes and has one: the only buffer is the text of the error. *)
Example C134_ex :
  de_of_h (T_B0 B0_16M) Debug (cursor [] [xff; xff; xff; x00]) =
    ([Ask 3; Ask 16777215; Buffer 19], cursor [xff; xff; xff] [x00], Err ParseError) /\
  de_of_h (T_STR0 STR0_255) Debug (cursor [xaa] [x02; x68; x69; xbb]) =
    ([Ask 1; Ask 2; Buffer 2], cursor [xaa; x02; x68; x69] [xbb], Ok (mkStr0 2 [x68; x69])) /\
  rust_slice [xff; xff; xff; x00] /\ rust_slice [xaa; x02; x68; x69; xbb].
Proof. repeat split; vm_compute; congruence. Qed.
(** The longest text occurs, behind a copied error code. *)
Example C134_ex_text : forall pf, exists ev p, de_kind_h K_MiningSetupConnectionError pf (mkParser
    ([x00; x00; x00; x00; x19] ++ map b8 [117; 110; 115; 117; 112; 112; 111; 114; 116; 101; 100; 45; 102; 101; 97; 116; 117; 114; 101; 45; 102; 108; 97; 103; 115]) 0)
    = (ev, p, Err RequirementError) /\ buffered ev = 25 + longest_text.
Proof. intros []; eexists _, _; (split; [vm_compute; reflexivity|reflexivity]). Qed.
(** A framed OpenStandardMiningChannelError: six bytes of header, the request number, "unknown-user". *)
Example C134_ex_receive :
  let bs := [x00; x00; x12; x11; x00; x00] ++ [x07; x00; x00; x00; x0c] ++ map b8 [117; 110; 107; 110; 111; 119; 110; 45; 117; 115; 101; 114] in
  exists ev m, rust_slice bs /\ receive_h K_OpenStandardMiningChannelError Release bs = (ev, Ok m) /\ buffered ev = 29 /\ asks ev = 7.
Proof. eexists _, _. split; [vm_compute; congruence|]. split; [vm_compute; reflexivity|split; reflexivity]. Qed.
Example C134_ex_nested :
  (forall n, storing (tower n) /\ no_bool (tower n)) /\
  shape_de_h (tower 3) Debug (cursor [xaa] [x07; x07; x07; x01; x02; xbb]) =
    ([Ask 1; Ask 1; Ask 1; Ask 2], cursor [xaa; x07; x07; x07; x01; x02] [xbb], Ok 513) /\
  rust_slice [xaa; x07; x07; x07; x01; x02; xbb].
Proof.
  split; [intros n; destruct (tower_facts n) as (A & B & _); auto|]. split; vm_compute; congruence.
Qed.
