(** * PropSig: C112, which certificate a signature belongs to. *)
From Coq Require Import ZArith.
From Verif Require Import Base Codec SpecWire Certs SpecCerts Ed25519 Base58Facts EdProofs CertProofs SpecSig SigProofs.
Local Open Scope N_scope.

(** C112.  Wanted: a signature that verifies a certificate under an authority key that [cf_new] accepts verifies no
    other certificate under it.  Refuted: with the authority key [text] one signature verifies every certificate. *)
Theorem C112_one_certificate_refuted : forall checked, exists text sig, len sig = 64 /\ canonical_sig sig /\ forall v f t key now,
  (0 <= now)%Z -> Z.to_N (now / 10 ^ 9) mod 2 ^ 32 < t ->
  exists c, cf_new (real_ed checked) text key (mkSnm v f t sig) = Ok c /\ cf_verify (real_ed checked) now c = Ok tt.
Proof. exact weak_authority. Qed.
Print Assumptions C112_one_certificate_refuted.
(** Under a key that is not weak, two certificates accepted with the same signature say the same, or the SHA-512 values
    of two different strings agree modulo the group order. *)
Theorem C112_one_certificate_partial : forall checked now now' c c', snm_ok (cf_message c) -> snm_ok (cf_message c') ->
  cf_authority c = cf_authority c' -> ~ weak (cf_authority c) -> sn_signature (cf_message c) = sn_signature (cf_message c') ->
  cf_verify (real_ed checked) now c = Ok tt -> cf_verify (real_ed checked) now' c' = Ok tt ->
  same_certificate c c' \/ exists m m', m <> m' /\
    wire m = cert_layout (sn_version (cf_message c)) (sn_valid_from (cf_message c)) (sn_not_valid_after (cf_message c)) (cf_static c) /\
    wire m' = cert_layout (sn_version (cf_message c')) (sn_valid_from (cf_message c')) (sn_not_valid_after (cf_message c')) (cf_static c') /\
    challenge (cf_authority c) m (sn_signature (cf_message c)) = challenge (cf_authority c) m' (sn_signature (cf_message c)).
Proof. exact certificate_bound. Qed.
Print Assumptions C112_one_certificate_partial.
(** No generated key is weak. *)
Theorem C112_generated_partial : forall seed, ~ weak (ek_public (ed_generate seed)).
Proof. exact generated_not_weak. Qed.
Print Assumptions C112_generated_partial.
(** The weak keys: seven values below 2^255, with either top bit; all are accepted as keys; what a signature verifies
    under one of them depends on the challenge modulo 8 only. *)
Theorem C112_weak_partial : forall checked pk,
  (weak pk <-> In (spec_val (wire pk) mod 2 ^ 255) (weak_ys ++ [SpecNoise.p25519; SpecNoise.p25519 + 1])) /\
  (len pk = 32 -> weak pk -> ed_valid (real_ed checked) pk = true) /\
  (forall m m' sig, weak pk -> challenge pk m sig mod 8 = challenge pk m' sig mod 8 ->
     ed_verify (real_ed checked) pk m sig = ed_verify (real_ed checked) pk m' sig).
Proof. exact (fun _ pk => conj (weak_list pk) (conj (weak_all_accepted pk) (weak_replay pk))). Qed.
Print Assumptions C112_weak_partial.
(** Under every key: a signature accepted for a certificate is refused once its second half is changed. *)
Theorem C112_second_half_partial : forall checked now now' c v f t r s s', len r = 32 -> len s = 32 -> len s' = 32 ->
  cf_message c = mkSnm v f t (r ++ s) -> cf_verify (real_ed checked) now c = Ok tt ->
  cf_verify (real_ed checked) now' (mkCf (cf_authority c) (cf_static c) (mkSnm v f t (r ++ s'))) = Ok tt -> s = s'.
Proof. exact certificate_signature. Qed.
Print Assumptions C112_second_half_partial.

Example C112_ex : exists m key, let c := mkCf (ed_public (repeat x01 32)) key m in
  sn_version m = 3 /\ sn_valid_from m = 4 /\ sn_not_valid_after m = 5 /\ key = repeat x02 32 /\
  snm_ok m /\ ~ weak (cf_authority c) /\ cf_verify (real_ed true) 0%Z c = Ok tt /\
  (exists r s, len r = 32 /\ len s = 32 /\ m = mkSnm 3 4 5 (r ++ s)) /\
  weak (x01 :: repeat x00 31) /\ weak (x00 :: repeat x00 31).
Proof.
  destruct (base58_total (ed_public (repeat x01 32))) as [text T].
  destruct (parts_verify (real_ed true) (ed_generate (repeat x01 32)) 3 4 5 (repeat x02 32) text 0%Z (real_ed_ok true) (real_ed_pair true _)
    eq_refl eq_refl eq_refl T ltac:(discriminate) eq_refl) as (cert & s & cf & A & B & _ & D & V).
  assert (LS : len s = 64).
  { unfold authority_sign_cert in B. destruct (serialize _) as [b| |]; cbn [obind] in B; try discriminate B. injection B as <-. apply (ed_sig_len _ (real_ed_ok true)). }
  rewrite (proj2 (cf_new_exact (real_ed true) text (repeat x02 32) (snm_new cert s)) _ T) in D.
  destruct (real_ed_pair true (repeat x01 32)) as (LP & VP & _). cbn [ek_public ed_generate] in LP, VP. rewrite LP, VP in D. injection D as <-.
  change (cert_new 3 4 5 (repeat x02 32)) with (Ok (mkCert 3 4 5 (repeat x02 32)) : Result signed_certificate) in A. injection A as <-.
  exists (snm_new (mkCert 3 4 5 (repeat x02 32)) s), (repeat x02 32). cbn zeta.
  split; [reflexivity|]. split; [reflexivity|]. split; [reflexivity|]. split; [reflexivity|].
  split; [split; [reflexivity|split; [reflexivity|split; [reflexivity|exact LS]]]|]. split; [apply generated_not_weak|]. split; [exact V|].
  split; [|split; vm_compute; auto].
  exists (firstn 32 s), (skipn 32 s). unfold len in *. rewrite firstn_length, skipn_length. rewrite firstn_skipn.
  split; [|split; [|reflexivity]]; rewrite <- N2Nat.id; f_equal; change (N.to_nat 32) with 32%nat; apply (f_equal N.to_nat) in LS; rewrite Nat2N.id in LS; rewrite LS; reflexivity.
Qed.
