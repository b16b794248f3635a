(** * PropSize: C137, how many bytes values take and readers ask for. *)
From Verif Require Import Base Codec Types Messages Frame Catalog SpecWire SpecTypes Macro SpecMacro SpecPieces SpecSize SizeProofs.

(** Every value of every type takes at least [fewest] and at most [most] bytes, and some values take just that. *)
Theorem C137_sizes : forall t v enc, ok t v -> serialize (ser_of t v) = Ok enc -> fewest t <= len enc <= most t.
Proof. exact encoded_size. Qed.
Print Assumptions C137_sizes.
Theorem C137_attained : forall t,
  (exists v enc, ok t v /\ serialize (ser_of t v) = Ok enc /\ len enc = fewest t) /\
  (exists v enc, ok t v /\ serialize (ser_of t v) = Ok enc /\ len enc = most t).
Proof. exact encoded_attained. Qed.
Print Assumptions C137_attained.
Theorem C137_taken : forall t pf pre rest p v, rust_slice (pre ++ rest) -> de_of t pf (cursor pre rest) = (p, Ok v) ->
  exists c rest', rest = c ++ rest' /\ p = cursor (pre ++ c) rest' /\ fewest t <= len c <= most t.
Proof. exact taken_size. Qed.
Print Assumptions C137_taken.

(** Declared messages: the sums over the fields. *)
Theorem C137_declared : forall ts v enc, fields_ok ts v -> serialize (im_ser ts v) = Ok enc ->
  total fewest ts <= len enc <= total most ts.
Proof. exact fields_encoded. Qed.
Print Assumptions C137_declared.
Theorem C137_declared_attained : forall ts,
  (exists v enc, fields_ok ts v /\ serialize (im_ser ts v) = Ok enc /\ len enc = total fewest ts) /\
  (exists v enc, fields_ok ts v /\ serialize (im_ser ts v) = Ok enc /\ len enc = total most ts).
Proof. exact fields_attained. Qed.
Print Assumptions C137_declared_attained.

(** [asks ts] bytes are always enough for the fields, one byte less is not, whatever the constructor does. *)
Theorem C137_enough : forall ts M (new : fields ts -> Result M), (forall v, fields_ok ts v -> new v <> Err ParseError) ->
  forall pf bs, rust_slice bs -> asks ts <= len bs -> deserialize (im_de ts new) pf bs <> Err ParseError.
Proof. exact declared_enough. Qed.
Print Assumptions C137_enough.
Theorem C137_least : forall ts, ts <> [] -> asks ts <= 2 ^ 63 -> exists bs, len bs + 1 = asks ts /\
  forall M (new : fields ts -> Result M) pf, deserialize (im_de ts new) pf bs = Err ParseError.
Proof. exact declared_least. Qed.
Print Assumptions C137_least.

(** A short string in front of a number: 33 bytes at most, and 4; but the string may ask for 256. *)
Example C137_ex :
  total most [T_STR0 STR0_32; T_u32] = 37 /\ asks [T_STR0 STR0_32; T_u32] = 256 /\ total fewest [T_STR0 STR0_32; T_u32] = 5 /\
  asks [T_U256; T_STR0 STR0_32; T_B0 B0_255] = 321 /\
  ok (T_STR0 STR0_32) (mkStr0 0 []) /\ serialize (ser_of (T_STR0 STR0_32) (mkStr0 0 [])) = Ok [x00] /\
  de_of (T_STR0 STR0_32) Debug (cursor [] [x00; x07]) = (cursor [x00] [x07], Ok (mkStr0 0 [])) /\
  (forall v : fields [T_STR0 STR0_32; T_u32], @Ok error _ v <> Err ParseError).
Proof.
  do 4 (split; [reflexivity|]).
  split; [split; [exists []; split; [constructor|reflexivity]|split; [discriminate|reflexivity]]|].
  split; [reflexivity|]. split; [reflexivity|]. discriminate.
Qed.
