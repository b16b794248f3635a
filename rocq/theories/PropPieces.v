(** * C122-C123: bytes that arrive in pieces. *)
From Verif Require Import Base Codec Types Messages Frame Catalog SpecWire SpecTypes SpecDecode Macro SpecMacro SpecPieces
  TypesFacts MsgProofs PieceProofs.

(** ** C122: ParseError means that bytes are missing, and nothing else does *)
Theorem C122_missing : forall t pf bs, len bs <= 2 ^ 62 ->
  deserialize (de_of t) pf bs = Err ParseError <->
  exists s, rust_slice (bs ++ s) /\ deserialize (de_of t) pf (bs ++ s) <> deserialize (de_of t) pf bs.
Proof. exact incomplete_ty. Qed.
Print Assumptions C122_missing.
Theorem C122_stable : forall t pf bs s, rust_slice (bs ++ s) -> deserialize (de_of t) pf bs <> Err ParseError ->
  deserialize (de_of t) pf (bs ++ s) = deserialize (de_of t) pf bs.
Proof. exact stable_ty. Qed.
Print Assumptions C122_stable.
Theorem C122_enough : forall t pf bs, rust_slice bs -> enough_for t <= len bs -> deserialize (de_of t) pf bs <> Err ParseError.
Proof. exact en_de. Qed.
Print Assumptions C122_enough.
Theorem C122_least : forall t, exists bs, len bs + 1 = enough_for t /\ forall pf, deserialize (de_of t) pf bs = Err ParseError.
Proof. exact least_for. Qed.
Print Assumptions C122_least.
Theorem C122_declared : forall ts M (new : fields ts -> Result M), (forall v, fields_ok ts v -> new v <> Err ParseError) ->
  forall pf bs, len bs + enough_for_all ts <= 2 ^ 63 - 1 ->
  deserialize (im_de ts new) pf bs = Err ParseError <->
  exists s, rust_slice (bs ++ s) /\ deserialize (im_de ts new) pf (bs ++ s) <> deserialize (im_de ts new) pf bs.
Proof. exact incomplete_decl. Qed.
Print Assumptions C122_declared.
Theorem C122_declared_stable : forall ts M (new : fields ts -> Result M) pf bs s, rust_slice (bs ++ s) ->
  deserialize (im_de ts new) pf bs <> Err ParseError ->
  deserialize (im_de ts new) pf (bs ++ s) = deserialize (im_de ts new) pf bs.
Proof. exact stable_decl. Qed.
Print Assumptions C122_declared_stable.
Theorem C122_declared_enough : forall ts M (new : fields ts -> Result M), (forall v, fields_ok ts v -> new v <> Err ParseError) ->
  forall pf bs, rust_slice bs -> enough_for_all ts <= len bs -> deserialize (im_de ts new) pf bs <> Err ParseError.
Proof. exact en_decl. Qed.
Print Assumptions C122_declared_enough.

(** A string one byte short, the string, and a string that no further byte can mend. *)
Example C122_ex :
  deserialize (de_of (T_STR0 STR0_255)) Debug [x02; x68] = Err ParseError /\
  deserialize (de_of (T_STR0 STR0_255)) Debug ([x02; x68] ++ [x69]) = Ok (mkStr0 2 [x68; x69]) /\
  deserialize (de_of (T_STR0 STR0_32)) Debug [x21; x68] = Err ParseError /\
  deserialize (de_of (T_flags MiningSuccessFlags)) Debug [x00; x00; x00; x80] = Err UnknownFlags /\
  enough_for_all [T_u8; T_STR0 STR0_255; T_U256] = 289 /\
  (forall v : fields [T_u8; T_STR0 STR0_255], @Ok error _ v <> Err ParseError).
Proof. repeat split; try reflexivity. discriminate. Qed.

(** ** C123: however a stream of frames is cut, the same frames are taken from it *)
Theorem C123_any_pieces : forall pf pieces, rust_slice (concat pieces) ->
  exists ms left st,
    receiving pf [] pieces ms left st /\
    (forall ms' left' st', receiving pf [] pieces ms' left' st' -> ms' = ms /\ left' = left /\ st' = st) /\
    exists left1, waiting pf (concat pieces) ms left1 st /\ (st = None -> left1 = left) /\
    (forall ms' left' st', waiting pf (concat pieces) ms' left' st' -> ms' = ms /\ left' = left1 /\ st' = st).
Proof. exact any_pieces. Qed.
Print Assumptions C123_any_pieces.
Theorem C123_sent : forall pf ms encs rest pieces, Forall (fun m => len (m_payload m) < 16777216) ms ->
  Forall2 (fun m e => serialize (ser_message m) = Ok e) ms encs ->
  (rest = [] \/ exists m e s, len (m_payload m) < 16777216 /\ serialize (ser_message m) = Ok e /\ s <> [] /\ e = rest ++ s) ->
  rust_slice (concat encs ++ rest) -> concat pieces = concat encs ++ rest ->
  receiving pf [] pieces ms rest None.
Proof. exact pieces_sent. Qed.
Print Assumptions C123_sent.

(** Two frames and the beginning of a third, in five pieces, one of them empty. *)
Definition frame_a : message := mkMessage MT_SetupConnection [x01; x02].
Definition frame_b : message := mkMessage MT_UpdateChannel [x07].
Example C123_ex :
  serialize (ser_message frame_a) = Ok [x00; x00; x00; x02; x00; x00; x01; x02] /\
  serialize (ser_message frame_b) = Ok [x00; x80; x16; x01; x00; x00; x07] /\
  (exists s, s <> [] /\ [x00; x80; x16; x01; x00; x00; x07] = [x00; x80] ++ s) /\
  receiving Debug [] [[x00]; [x00; x00; x02; x00; x00; x01]; []; [x02; x00; x80; x16; x01; x00; x00; x07; x00]; [x80]]
    [frame_a; frame_b] [x00; x80] None.
Proof.
  split; [vm_compute; reflexivity|]. split; [vm_compute; reflexivity|].
  split; [eexists; split; [|reflexivity]; discriminate|].
  change [frame_a; frame_b] with ([] ++ [] ++ [] ++ [frame_a; frame_b] ++ [] ++ []).
  repeat (eapply R_piece; [cbn [app]; first [
    apply W_more; vm_compute; reflexivity |
    eapply W_take; [vm_compute; reflexivity|]; cbn [length m_payload Nat.add skipn];
    eapply W_take; [vm_compute; reflexivity|]; cbn [length m_payload Nat.add skipn]; apply W_more; vm_compute; reflexivity ]|]).
  apply R_end.
Qed.
