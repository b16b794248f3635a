(** * PropReason: C115 to C118, the texts of errors. *)
From Coq Require Import Strings.String.
From Verif Require Import Base Codec Types Messages Frame Certs Display Reasons Catalog SpecWire SpecTypes SpecTexts SpecCerts SpecReason
  BaseFacts CodecFacts CertProofs ReasonProofs.
Local Open Scope N_scope.
Local Open Scope list_scope.

(** C115.  Refuted: that some string is too long is all that the error says; a host that is too long and a device id that
    is too long fail alike. *)
Theorem C115_reason_names_field_refuted : exists long short fl f,
  too_long long /\ ~ too_long short /\ short <> [] /\
  sc_new_t 2 2 fl long 1 short short short short = Err f /\ sc_new_t 2 2 fl short 1 short short short long = Err f.
Proof. exact setup_same_text. Qed.
Print Assumptions C115_reason_names_field_refuted.
(** Otherwise the complaint is the one that belongs to the first requirement that is violated. *)
Theorem C115_reason_exact_partial : forall mi ma fl eh ep ve hv fw di,
  let r := sc_new_t mi ma fl eh ep ve hv fw di in
  (forall e s n, first_violated (setup_complaints mi ma eh ve hv fw di) n (e, s) -> r = Err (e, says s)) /\
  (none_violated (setup_complaints mi ma eh ve hv fw di) -> exists v, r = Ok v) /\
  ((exists n e s, first_violated (setup_complaints mi ma eh ve hv fw di) n (e, s)) \/
   none_violated (setup_complaints mi ma eh ve hv fw di)).
Proof. exact setup_table. Qed.
Print Assumptions C115_reason_exact_partial.
(** Without its text the outcome is that of the constructor the other claims are about. *)
Theorem C115_same_constructor_partial : forall mi ma fl eh ep ve hv fw di,
  erase (sc_new_t mi ma fl eh ep ve hv fw di) = sc_new mi ma fl eh ep ve hv fw di.
Proof. exact erase_sc_new. Qed.
Print Assumptions C115_same_constructor_partial.
Example C115_ex : first_violated (setup_complaints 1 0 [x41] [x42] [] [x43] []) 2 (VersionError, "min_version must be atleast 2"%string) /\
  sc_new_t 1 0 0 [x41] 1 [x42] [] [x43] [] = Err (VersionError, says "min_version must be atleast 2").
Proof.
  split; [|reflexivity]. exists (1 < 2). split; [reflexivity|]. split; [reflexivity|].
  intros [|[|[|i]]] w a Hi H; try lia; injection H as <- _; discriminate.
Qed.

(** C116.  Every byte sequence, with the text of the error if there is one, and there is only one way to tell it. *)
Theorem C116_decoding_told : forall k pf pre rest, rust_slice (pre ++ rest) ->
  exists r, telling_of k rest r /\ (forall r', telling_of k rest r' -> r' = r) /\
  match r with
  | Ok (v, rest') => exists c, rest = c ++ rest' /\ de_kind_t k pf (cursor pre rest) = (cursor (pre ++ c) rest', Ok v)
  | Err f => snd (de_kind_t k pf (cursor pre rest)) = Err f
  | Panic => False
  end.
Proof. exact decode_told. Qed.
Print Assumptions C116_decoding_told.
Theorem C116_frame_told : forall pf pre rest, rust_slice (pre ++ rest) ->
  match spec_decode_frame rest with
  | Ok (m, n) => de_message_t pf (cursor pre rest) = (mkParser (pre ++ rest) (len pre + n), Ok m)
  | Err e => snd (de_message_t pf (cursor pre rest)) = Err (e, match e with ParseError => says "out of bounds error" | _ => [] end)
  | Panic => False
  end.
Proof. exact frame_told. Qed.
Print Assumptions C116_frame_told.
(** The text about a string that is not UTF-8 says where it goes wrong, and there is only one such place. *)
Theorem C116_utf8_told : forall s, (utf8_text s /\ string_from_utf8_t s = Ok s) \/
  (~ utf8_text s /\ exists t, utf8_message s t /\ string_from_utf8_t s = Err (FromUtf8Error, t)).
Proof. exact from_utf8_said. Qed.
Print Assumptions C116_utf8_told.
Theorem C116_one_fault : forall bs v k v' k', utf8_fault bs v k -> utf8_fault bs v' k' -> v = v' /\ k = k'.
Proof. exact fault_fun. Qed.
Print Assumptions C116_one_fault.
(** Without its text the outcome is that of the functions the other claims are about. *)
Theorem C116_same_decoder : forall k pf bs, erase (deserialize_t (de_kind_t k) pf bs) = deserialize (fr_de (frameable_of k)) pf bs.
Proof. exact kind_erased. Qed.
Print Assumptions C116_same_decoder.
Theorem C116_same_frame : forall pf bs, erase (deserialize_t de_message_t pf bs) = deserialize de_message pf bs.
Proof. exact frame_erased. Qed.
Print Assumptions C116_same_frame.
Theorem C116_same_unframe : forall k pf m, erase (unframe_t k pf m) = unframe (frameable_of k) pf m.
Proof. exact unframe_erased. Qed.
Print Assumptions C116_same_unframe.
Example C116_ex :
  string_from_utf8_t [x41; xe2; x82; x41] = Err (FromUtf8Error, says "invalid utf-8 sequence of 2 bytes from index 1") /\
  string_from_utf8_t [x41; xe2; x82] = Err (FromUtf8Error, says "incomplete utf-8 byte sequence from index 1") /\
  string_from_utf8_t [xed; xa0; x80] = Err (FromUtf8Error, says "invalid utf-8 sequence of 1 bytes from index 0").
Proof. repeat split; vm_compute; reflexivity. Qed.

(** C117.  What is printed for a failure is printed for no other. *)
Theorem C117_failure_identified : forall f g, arises f -> arises g -> shown f = shown g -> f = g.
Proof. exact failure_identified. Qed.
Print Assumptions C117_failure_identified.
(** The same text about two strings means that both go wrong at the same place in the same way. *)
Theorem C117_position_identified : forall s s' t, string_from_utf8_t s = Err (FromUtf8Error, t) -> string_from_utf8_t s' = Err (FromUtf8Error, t) ->
  exists v k, utf8_fault s v k /\ utf8_fault s' v k.
Proof. exact position_identified. Qed.
Print Assumptions C117_position_identified.
(** The text about a frame tells what was wrong with it, the channel bit in it included; the text about a message of
    another type tells the type that was expected. *)
Theorem C117_frame_shown : forall pf pre rest f, rust_slice (pre ++ rest) -> snd (de_message_t pf (cursor pre rest)) = Err f ->
  exists e, spec_decode_frame rest = Err e /\ shown f = frame_shows e.
Proof. exact frame_shown. Qed.
Print Assumptions C117_frame_shown.
Theorem C117_type_shown : forall k pf m, fr_type (frameable_of k) <> m_type m -> exists f d,
  unframe_t k pf m = Err f /\ decimal d (fst (spec_code (fr_type (frameable_of k)))) /\
  shown f = says "parsed message type `0/" ++ d ++ says "` does not match expected message".
Proof. exact type_shown. Qed.
Print Assumptions C117_type_shown.
(** UpdateChannelError with the channel bit missing; a ChannelEndpointChanged unframed as UpdateChannel. *)
Example C117_ex_shown :
  rust_slice ([] ++ [x00; x00; x17; x00; x00; x00]) /\
  snd (de_message_t Debug (cursor [] [x00; x00; x17; x00; x00; x00])) = Err (UnexpectedChannelBit false, []) /\
  fr_type (frameable_of K_UpdateChannel) <> MT_ChannelEndpointChanged /\
  (exists f, unframe_t K_UpdateChannel Debug (mkMessage MT_ChannelEndpointChanged [x00]) = Err f /\
     shown f = says "parsed message type `0/22` does not match expected message").
Proof.
  split; [vm_compute; congruence|]. split; [vm_compute; reflexivity|]. split; [discriminate|].
  eexists. split; vm_compute; reflexivity.
Qed.
Example C117_ex : arises (RequirementError, says "vendor field in SetupConnection MUST NOT be empty") /\
  arises (VersionError, says "min_version must be atleast 2") /\ arises (ParseError, says "out of bounds error") /\
  shown (ParseError, says "out of bounds error") = says "`out of bounds error`".
Proof.
  split; [apply (from_setup 2 2 0 [] 0 [] [] [] []); reflexivity|]. split; [apply (from_setup 1 2 0 [] 0 [x41] [] [x41] []); reflexivity|].
  split; [apply (from_frame Debug []); reflexivity|]. reflexivity.
Qed.

(** C118.  What the checks of a certificate say.  The texts of the errors of other crates are arbitrary. *)
Theorem C118_format_told : forall E base58_text ed_text text static m,
  ((forall k, ~ base58 text k) -> cf_new_t E base58_text ed_text text static m = Err (Base58Error, base58_text text)) /\
  (forall k, base58 text k ->
     cf_new_t E base58_text ed_text text static m =
       if len k =? 32 then if ed_valid E k then Ok (mkCf k static m) else Err (AuthorityKeyError, ed_text)
       else Err (ParseError, says "Failed to deserialize the base58 public key")).
Proof. exact cf_new_told. Qed.
Print Assumptions C118_format_told.
Theorem C118_verify_told : forall E ed_text time_text now c,
  let m := cf_message c in
  exists signed, wire signed = cert_layout (sn_version m) (sn_valid_from m) (sn_not_valid_after m) (cf_static c) /\
  cf_verify_t E ed_text time_text now c =
    if (now <? 0)%Z then Err (SystemTimeError, time_text now)
    else if sn_not_valid_after m <=? Z.to_N (now / 10 ^ 9) mod 2 ^ 32
    then Err (RequirementError, says "the signature noise message is expired")
    else if ed_verify E (cf_authority c) signed (sn_signature m) then Ok tt else Err (AuthorityKeyError, ed_text).
Proof. exact cf_verify_told. Qed.
Print Assumptions C118_verify_told.
Theorem C118_certificate_told : forall v f t key,
  (t <= f -> cert_new_t v f t key = Err (RequirementError, says "the valid_from time cannot be greater than or equal to the not_valid_after time")) /\
  (f < t -> cert_new_t v f t key = Ok (mkCert v f t key)).
Proof. exact cert_new_told. Qed.
Print Assumptions C118_certificate_told.
Theorem C118_same_format : forall E base58_text ed_text a s m, erase (cf_new_t E base58_text ed_text a s m) = cf_new E a s m.
Proof. exact erase_cf_new. Qed.
Print Assumptions C118_same_format.
Theorem C118_same_verify : forall E ed_text time_text now c, erase (cf_verify_t E ed_text time_text now c) = cf_verify E now c.
Proof. exact erase_cf_verify. Qed.
Print Assumptions C118_same_verify.
Example C118_ex :
  cf_verify_t (demo_ed true) (says "signature error") (fun _ => says "second time provided was later than self") (200 * 10 ^ 9)%Z (d_cf 100 200) =
    Err (RequirementError, says "the signature noise message is expired") /\
  cf_new_t (demo_ed true) (fun _ => []) [] (says "2g") d_key (cf_message (d_cf 100 200)) =
    Err (ParseError, says "Failed to deserialize the base58 public key").
Proof. split; vm_compute; reflexivity. Qed.
