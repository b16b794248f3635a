(** * PropCerts: C35-C40 and C74, certificates of the pool's static key.

    [E : ed_ops] are the functions of ed25519-dalek; the laws assumed of them are hypotheses ([ed_ok],
    [ed_pair]) of the theorems that need them.  Times are nanoseconds since 1970. *)
From Coq Require Import ZArith.
From Verif Require Import Base Codec Types Certs SpecWire SpecTypes SpecCerts Base58Facts CertProofs PartialProofs.
Open Scope N_scope.

(** C35. *)
Theorem C35_certificate_window : forall v f t k,
  (f < t -> cert_new v f t k = Ok (mkCert v f t k)) /\ (t <= f -> cert_new v f t k = Err RequirementError).
Proof. exact cert_new_exact. Qed.
Print Assumptions C35_certificate_window.

Example C35_ex : cert_new 0 5 6 d_key = Ok (mkCert 0 5 6 d_key) /\ cert_new 0 5 5 d_key = Err RequirementError.
Proof. split; reflexivity. Qed.

(** C36. *)
Theorem C36_pool_certificate_verifies : forall E kp v f t key text now pf pre rest, ed_ok E -> ed_pair E kp ->
  v < 2 ^ 16 -> f < t -> t < 2 ^ 32 -> base58 text (ek_public kp) ->
  (0 <= now)%Z -> Z.to_N (now / 10 ^ 9) mod 2 ^ 32 < t ->
  exists cert m enc cf,
    cert_new v f t key = Ok cert /\ from_auth_key E kp cert = Ok m /\ serialize (ser_snm m) = Ok enc /\
    (rust_slice (pre ++ enc ++ rest) -> de_snm E pf (cursor pre (enc ++ rest)) = (cursor (pre ++ enc) rest, Ok m)) /\
    cf_new E text key m = Ok cf /\ cf_verify E now cf = Ok tt.
Proof. exact pool_verifies. Qed.
Print Assumptions C36_pool_certificate_verifies.
(** The same for a message put together with [SignatureNoiseMessage::new] from a separate signature. *)
Theorem C36_from_parts : forall E kp v f t key text now, ed_ok E -> ed_pair E kp ->
  v < 2 ^ 16 -> f < t -> t < 2 ^ 32 -> base58 text (ek_public kp) ->
  (0 <= now)%Z -> Z.to_N (now / 10 ^ 9) mod 2 ^ 32 < t ->
  exists cert s cf, cert_new v f t key = Ok cert /\ authority_sign_cert E kp cert = Ok s /\
    from_auth_key E kp cert = Ok (snm_new cert s) /\
    cf_new E text key (snm_new cert s) = Ok cf /\ cf_verify E now cf = Ok tt.
Proof. exact parts_verify. Qed.
Print Assumptions C36_from_parts.

Example C36_ex : ed_ok (demo_ed true) /\ ed_pair (demo_ed true) d_kp /\ base58 d_text (ek_public d_kp) /\
  (exists m cf, from_auth_key (demo_ed true) d_kp (mkCert 7 100 200 d_key) = Ok m /\
     cf_new (demo_ed true) d_text d_key m = Ok cf /\
     cf_verify (demo_ed true) (199 * 10 ^ 9)%Z cf = Ok tt /\ cf_verify (demo_ed true) (200 * 10 ^ 9)%Z cf = Err RequirementError).
Proof.
  split; [apply demo_ed_ok|]. split; [apply demo_pair|]. split.
  - apply (proj1 (base58_from_spec d_text)). vm_compute. reflexivity.
  - do 2 eexists. split; [vm_compute; reflexivity|]. split; [vm_compute; reflexivity|]. split; vm_compute; reflexivity.
Qed.

(** C37. *)
Theorem C37_verify_exact : forall E now c,
  let m := cf_message c in
  exists signed, wire signed = cert_layout (sn_version m) (sn_valid_from m) (sn_not_valid_after m) (cf_static c) /\
  ((now < 0)%Z -> cf_verify E now c = Err SystemTimeError) /\
  ((0 <= now)%Z -> sn_not_valid_after m <= Z.to_N (now / 10 ^ 9) mod 2 ^ 32 -> cf_verify E now c = Err RequirementError) /\
  ((0 <= now)%Z -> Z.to_N (now / 10 ^ 9) mod 2 ^ 32 < sn_not_valid_after m ->
     cf_verify E now c = if ed_verify E (cf_authority c) signed (sn_signature m) then Ok tt else Err AuthorityKeyError).
Proof. exact verify_iff. Qed.
Print Assumptions C37_verify_exact.
Theorem C37_every_field_is_signed : forall v f t k v' f' t' k',
  v < 2 ^ 16 -> f < 2 ^ 32 -> t < 2 ^ 32 -> v' < 2 ^ 16 -> f' < 2 ^ 32 -> t' < 2 ^ 32 ->
  cert_layout v f t k = cert_layout v' f' t' k' -> v = v' /\ f = f' /\ t = t' /\ k = k'.
Proof. exact layout_binds. Qed.
Print Assumptions C37_every_field_is_signed.
(** If the authority's key only verifies encodings of certificates it issued, a client only accepts
    a message and static key that agree with one of them in all four fields. *)
Theorem C37_accepts_only_issued : forall E now c (issued : list (N * N * N * bytes)),
  (forall v f t k, In (v, f, t, k) issued -> v < 2 ^ 16 /\ f < 2 ^ 32 /\ t < 2 ^ 32) ->
  snm_ok (cf_message c) ->
  (forall m s, ed_verify E (cf_authority c) m s = true ->
     exists v f t k, In (v, f, t, k) issued /\ wire m = cert_layout v f t k) ->
  cf_verify E now c = Ok tt ->
  In (sn_version (cf_message c), sn_valid_from (cf_message c), sn_not_valid_after (cf_message c), cf_static c) issued.
Proof. exact accepts_only_signed. Qed.
Print Assumptions C37_accepts_only_issued.

Example C37_ex : cf_verify (demo_ed true) (150 * 10 ^ 9)%Z (d_cf 100 200) = Ok tt /\
  cf_verify (demo_ed true) (200 * 10 ^ 9)%Z (d_cf 100 200) = Err RequirementError /\
  cf_verify (demo_ed true) (-1)%Z (d_cf 100 200) = Err SystemTimeError /\
  cf_verify (demo_ed true) (150 * 10 ^ 9)%Z (mkCf d_key d_key (mkSnm 1 100 200 (sn_signature (cf_message (d_cf 100 200))))) = Err AuthorityKeyError.
Proof. repeat split; vm_compute; reflexivity. Qed.
(** A scheme that verifies only one issued certificate. *)
Example C37_ex_issued :
  let m := to_le 2 0 ++ to_le 4 100 ++ to_le 4 200 ++ d_key in
  let E := mkEd (fun _ => true) (fun _ _ => repeat x00 64) (fun _ x _ => bytes_eqb x m) true in
  (forall x s, ed_verify E d_key x s = true ->
     exists v f t k, In (v, f, t, k) [(0, 100, 200, d_key)] /\ wire x = cert_layout v f t k) /\
  cf_verify E (150 * 10 ^ 9)%Z (d_cf 100 200) = Ok tt.
Proof.
  cbv zeta. split; [|vm_compute; reflexivity].
  intros x s H. cbn [ed_verify] in H. apply BaseFacts.bytes_eqb_iff in H.
  exists 0, 100, 200, d_key. split; [left; reflexivity|]. rewrite H. vm_compute. reflexivity.
Qed.

(** C38.  Full statement: [forall E now c, cf_verify E now c = Ok tt ->
    valid_from * 10^9 <= now < not_valid_after * 10^9].  Refuted: [valid_from] is never compared, and the seconds are cut to
    32 bits.  What is left: before 2106 nothing is accepted after it expired. *)
Theorem C38_accepted_before_valid_refuted : exists E now c, ed_ok E /\ ed_pair E d_kp /\ cf_verify E now c = Ok tt /\
  (now < Z.of_N (sn_valid_from (cf_message c)) * 10 ^ 9)%Z.
Proof.
  exists (demo_ed true), (1000 * 10 ^ 9)%Z, (d_cf 2000 3000). split; [apply demo_ed_ok|]. split; [apply demo_pair|].
  split; [exact early_accepted|reflexivity].
Qed.
Print Assumptions C38_accepted_before_valid_refuted.
Theorem C38_accepted_after_expiry_refuted : exists E now c, ed_ok E /\ ed_pair E d_kp /\ cf_verify E now c = Ok tt /\
  (Z.of_N (sn_not_valid_after (cf_message c)) * 10 ^ 9 <= now)%Z.
Proof.
  exists (demo_ed true), (4294968000 * 10 ^ 9)%Z, (d_cf 500 1000). split; [apply demo_ed_ok|]. split; [apply demo_pair|].
  split; [exact late_accepted|discriminate].
Qed.
Print Assumptions C38_accepted_after_expiry_refuted.
Theorem C38_before_expiry_partial : forall E now c, (now < 2 ^ 32 * 10 ^ 9)%Z -> cf_verify E now c = Ok tt ->
  (0 <= now < Z.of_N (sn_not_valid_after (cf_message c)) * 10 ^ 9)%Z.
Proof. exact verify_before_expiry. Qed.
Print Assumptions C38_before_expiry_partial.
(** Exactly when a certificate is accepted: from every multiple of 2^32 seconds until its expiry is reached again. *)
Theorem C38_when_accepted_partial : forall E c, sn_not_valid_after (cf_message c) < 2 ^ 32 ->
  exists signed, wire signed = cert_layout (sn_version (cf_message c)) (sn_valid_from (cf_message c))
                                 (sn_not_valid_after (cf_message c)) (cf_static c) /\
  forall now, cf_verify E now c = Ok tt <->
    ed_verify E (cf_authority c) signed (sn_signature (cf_message c)) = true /\
    exists cycle, (0 <= cycle /\ cycle * 2 ^ 32 * 10 ^ 9 <= now <
                   (cycle * 2 ^ 32 + Z.of_N (sn_not_valid_after (cf_message c))) * 10 ^ 9)%Z.
Proof. exact when_accepted. Qed.
Print Assumptions C38_when_accepted_partial.

Example C38_ex : cf_verify (demo_ed false) (199 * 10 ^ 9 + 999999999)%Z (d_cf 100 200) = Ok tt.
Proof. vm_compute. reflexivity. Qed.

(** C39.  [canonical_sig] matters only where ed25519's [Signature::new] checks it; see C74. *)
Theorem C39_serialized : forall m, snm_ok m -> exists enc, wire enc = snm_layout m /\ len enc = 74 /\
  forall w, run vec_writer (ser_snm m) w = (w ++ enc, Ok 74).
Proof. exact snm_serialized. Qed.
Print Assumptions C39_serialized.
Theorem C39_round_trip : forall E m pf pre enc rest, snm_ok m -> wire enc = snm_layout m -> rust_slice (pre ++ enc ++ rest) ->
  ((ed_sig_checked E = true -> canonical_sig (sn_signature m)) ->
     de_snm E pf (cursor pre (enc ++ rest)) = (cursor (pre ++ enc) rest, Ok m)) /\
  (ed_sig_checked E = true -> ~ canonical_sig (sn_signature m) ->
     snd (de_snm E pf (cursor pre (enc ++ rest))) = Panic).
Proof. exact snm_outcome. Qed.
Print Assumptions C39_round_trip.
Theorem C39_short_input : forall E pf pre rest, rust_slice (pre ++ rest) -> len rest < 74 ->
  snd (de_snm E pf (cursor pre rest)) = Err ParseError.
Proof. exact snm_short. Qed.
Print Assumptions C39_short_input.
(** The two previous theorems cover every input: 74 bytes or more begin with the layout of some message. *)
Theorem C39_every_74_bytes : forall rest, 74 <= len rest ->
  exists m enc tail, snm_ok m /\ rest = enc ++ tail /\ wire enc = snm_layout m.
Proof. exact snm_onto. Qed.
Print Assumptions C39_every_74_bytes.

Example C39_ex : let m := mkSnm 0x0102 0x03040506 0x0708090A (repeat x1f 64) in
  let enc := [x02; x01; x06; x05; x04; x03; x0a; x09; x08; x07] ++ repeat x1f 64 in
  serialize (ser_snm m) = Ok enc /\
  de_snm (demo_ed true) Debug (cursor [xaa] (enc ++ [xbb])) = (cursor (xaa :: enc) [xbb], Ok m).
Proof. split; vm_compute; reflexivity. Qed.

(** C40. *)
Theorem C40_authority_key : forall E text static m,
  ((forall k, ~ base58 text k) -> cf_new E text static m = Err Base58Error) /\
  (forall k, base58 text k ->
     cf_new E text static m =
       if len k =? 32 then if ed_valid E k then Ok (mkCf k static m) else Err AuthorityKeyError else Err ParseError).
Proof. exact cf_new_exact. Qed.
Print Assumptions C40_authority_key.
(** A text stands for at most one key, a key has exactly one text. *)
Theorem C40_key_unique : forall s k1 k2, base58 s k1 -> base58 s k2 -> k1 = k2.
Proof. exact base58_unique. Qed.
Print Assumptions C40_key_unique.
Theorem C40_text_unique : forall s1 s2 k, base58 s1 k -> base58 s2 k -> s1 = s2.
Proof. exact base58_text_unique. Qed.
Print Assumptions C40_text_unique.
Theorem C40_every_key_has_a_text : forall k, exists s, base58 s k.
Proof. exact base58_total. Qed.
Print Assumptions C40_every_key_has_a_text.

Example C40_ex : let m := mkSnm 0 1 2 (repeat x00 64) in
  cf_new (demo_ed true) d_text d_key m = Ok (mkCf d_key d_key m) /\
  cf_new (demo_ed true) (x30 :: d_text) d_key m = Err Base58Error /\
  cf_new (demo_ed true) (x31 :: d_text) d_key m = Err ParseError /\
  cf_new (mkEd (fun _ => false) (fun _ _ => []) (fun _ _ _ => true) true) d_text d_key m = Err AuthorityKeyError.
Proof. repeat split; vm_compute; reflexivity. Qed.

(** C74.  Full statement: [forall E pf pre rest, rust_slice (pre ++ rest) -> snd (de_snm E pf (cursor pre rest)) <> Panic].
    Refuted for the versions of the ed25519 crate whose [Signature::new] checks its argument. *)
Theorem C74_decode_panics_refuted : exists E pf pre rest, ed_ok E /\ rust_slice (pre ++ rest) /\
  snd (de_snm E pf (cursor pre rest)) = Panic.
Proof.
  exists (demo_ed true), Release, [], (repeat xff 74). split; [apply demo_ed_ok|].
  split; [vm_compute; discriminate|vm_compute; reflexivity].
Qed.
Print Assumptions C74_decode_panics_refuted.
Theorem C74_panics_exactly_partial : forall E pf pre rest, rust_slice (pre ++ rest) ->
  (snd (de_snm E pf (cursor pre rest)) = Panic <->
   ed_sig_checked E = true /\ 74 <= len rest /\ ~ canonical_sig (firstn 64 (skipn 10 rest))).
Proof. exact snm_panic_iff. Qed.
Print Assumptions C74_panics_exactly_partial.

Example C74_ex : snd (de_snm (demo_ed true) Debug (cursor [] (repeat x00 73 ++ [x20]))) = Panic /\
  snd (de_snm (demo_ed false) Debug (cursor [] (repeat x00 73 ++ [x20]))) = Ok (mkSnm 0 0 0 (repeat x00 63 ++ [x20])).
Proof. split; vm_compute; reflexivity. Qed.
