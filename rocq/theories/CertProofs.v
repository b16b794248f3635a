(** * CertProofs: lemmas behind PropCerts. *)
From Coq Require Import Strings.String Lia ZifyBool ZifyNat ZifyN ZArith.
From Verif Require Crypto CryptoFacts.
From Verif Require Import Base Codec Types Certs SpecWire SpecTypes SpecCerts BaseFacts CodecFacts TypesFacts Base58Facts.
Open Scope N_scope.

(** ** Serializing *)
Lemma cert_bytes : forall v f t k,
  run vec_writer (n1 <- ser_u16 v ;; n2 <- ser_u32 f ;; n3 <- ser_u32 t ;; n4 <- ser_static_key k ;; wok (n1 + n2 + n3 + n4))%ser []
  = (to_le 2 v ++ to_le 4 f ++ to_le 4 t ++ k, Ok (10 + len k)).
Proof.
  intros. unfold ser_u16, ser_u32, ser_uint, ser_static_key, wwrite, wok. cbn [wbind run vec_writer].
  rewrite !len_to_le. rewrite <- !app_assoc. cbn [app]. do 2 f_equal.
Qed.
Lemma ser_cert_bytes : forall c, serialize (ser_cert c) =
  Ok (to_le 2 (ce_version c) ++ to_le 4 (ce_valid_from c) ++ to_le 4 (ce_not_valid_after c) ++ ce_public_key c).
Proof. intro c. unfold serialize, ser_cert. rewrite cert_bytes. reflexivity. Qed.
Lemma ser_cf_bytes : forall c, serialize (ser_cf c) =
  Ok (to_le 2 (sn_version (cf_message c)) ++ to_le 4 (sn_valid_from (cf_message c)) ++
      to_le 4 (sn_not_valid_after (cf_message c)) ++ cf_static c).
Proof. intro c. unfold serialize, ser_cf. rewrite cert_bytes. reflexivity. Qed.
Lemma ser_snm_run : forall m w, run vec_writer (ser_snm m) w =
  (w ++ to_le 2 (sn_version m) ++ to_le 4 (sn_valid_from m) ++ to_le 4 (sn_not_valid_after m) ++ sn_signature m,
   Ok (10 + len (sn_signature m))).
Proof.
  intros. unfold ser_snm, ser_u16, ser_u32, ser_uint, ser_signature, wwrite, wok. cbn [wbind run vec_writer].
  rewrite !len_to_le. rewrite <- !app_assoc. reflexivity.
Qed.
Lemma wire_cert : forall v f t k, wire (to_le 2 v ++ to_le 4 f ++ to_le 4 t ++ k) = cert_layout v f t k.
Proof. intros. unfold cert_layout. rewrite !wire_app, !wire_to_le. reflexivity. Qed.

(** ** C35 *)
Lemma cert_new_exact : forall v f t k,
  (f < t -> cert_new v f t k = Ok (mkCert v f t k)) /\ (t <= f -> cert_new v f t k = Err RequirementError).
Proof. intros. unfold cert_new. split; intro H; destruct (t <=? f) eqn:E; (reflexivity || lia). Qed.

(** ** Decoding a SignatureNoiseMessage *)
Lemma uint_reads : forall k c, (k <= 8)%nat -> len c = N.of_nat k -> reads (de_uint k) c (of_le c).
Proof.
  intros k c Hk Hc. destruct (uint_field k Hk) as (_ & R & _). apply R.
  - rewrite <- Hc. apply of_le_bound.
  - symmetry. apply spec_le_of_le. exact Hc.
Qed.
Lemma uint_short : forall k pf pre rest, (k <= 8)%nat -> rust_slice (pre ++ rest) -> len rest < N.of_nat k ->
  de_uint k pf (P pre rest) = (P pre rest, Err ParseError).
Proof.
  intros k pf pre rest Hk Hs Hl. unfold de_uint, de_bind. rewrite next_by_short; [reflexivity|exact Hs|lia|exact Hl].
Qed.

Section Ed.
Variable E : ed_ops.

Definition bad_sig (s : bytes) : bool := ed_sig_checked E && negb (N.land (Byte.to_N (nth 63 s x00)) 0xE0 =? 0).
Lemma canonical_bits : forall s, len s = 64 -> (N.land (Byte.to_N (nth 63 s x00)) 0xE0 =? 0) = true <-> canonical_sig s.
Proof.
  intros s Hs. unfold canonical_sig.
  destruct (split_at _ 63 s ltac:(lia)) as (a & b & -> & Ha).
  assert (La : length a = 63%nat) by (unfold len in Ha; lia).
  rewrite len_app in Hs. destruct b as [|c [|d b]]; [rewrite len_nil in Hs; lia| |rewrite !len_cons in Hs; lia].
  rewrite app_nth2 by lia. rewrite La.
  replace (skipn 63 (a ++ [c])) with [c] by (rewrite skipn_app, La, skipn_all2 by lia; reflexivity). cbn [nth Nat.sub].
  unfold spec_val, wire. cbn [map fold_right]. rewrite N.add_0_r.
  destruct c; vm_compute; split; intro X; try reflexivity; discriminate X.
Qed.

Lemma sig_decode : forall pf pre s rest, rust_slice (pre ++ s ++ rest) -> len s = 64 ->
  de_signature E pf (P pre (s ++ rest)) = (P (pre ++ s) rest, if bad_sig s then Panic else Ok s).
Proof.
  intros pf pre s rest Hs Hl. unfold de_signature, de_bind. rewrite <- Hl at 1. rewrite next_by_ok by exact Hs.
  unfold de_lift. rewrite Hl. cbn [N.eqb Pos.eqb]. unfold signature_new, bad_sig. destruct (_ && _); reflexivity.
Qed.

Lemma snm_decode : forall pf pre a b c s rest, len a = 2 -> len b = 4 -> len c = 4 -> len s = 64 ->
  rust_slice (pre ++ (a ++ b ++ c ++ s) ++ rest) ->
  de_snm E pf (P pre ((a ++ b ++ c ++ s) ++ rest)) =
  (P (pre ++ a ++ b ++ c ++ s) rest,
   if bad_sig s then Panic else Ok (mkSnm (of_le a) (of_le b) (of_le c) s)).
Proof.
  intros pf pre a b c s rest Ha Hb Hc Hs HR. unfold de_snm, de_bind, de_u16, de_u32.
  rewrite <- !app_assoc in *.
  rewrite (uint_reads 2 a ltac:(lia) Ha pf pre (b ++ c ++ s ++ rest) HR).
  rewrite (uint_reads 4 b ltac:(lia) Hb pf (pre ++ a) (c ++ s ++ rest)) by (rewrite <- !app_assoc; exact HR).
  rewrite (uint_reads 4 c ltac:(lia) Hc pf ((pre ++ a) ++ b) (s ++ rest)) by (rewrite <- !app_assoc; exact HR).
  rewrite (sig_decode pf _ s rest) by (try exact Hs; rewrite <- !app_assoc; exact HR).
  destruct (bad_sig s); rewrite <- !app_assoc; reflexivity.
Qed.

Lemma snm_short : forall pf pre rest, rust_slice (pre ++ rest) -> len rest < 74 ->
  snd (de_snm E pf (P pre rest)) = Err ParseError.
Proof.
  intros pf pre rest HR Hl. unfold de_snm, de_bind, de_u16, de_u32.
  destruct (N.lt_ge_cases (len rest) 2) as [H|H].
  { rewrite uint_short; [reflexivity|lia|exact HR|exact H]. }
  destruct (split_at _ 2 rest H) as (a & r1 & -> & Ha). rewrite len_app in Hl.
  rewrite (uint_reads 2 a ltac:(lia) Ha pf pre r1 HR).
  assert (HR1 : rust_slice ((pre ++ a) ++ r1)) by (rewrite <- app_assoc; exact HR).
  destruct (N.lt_ge_cases (len r1) 4) as [H1|H1].
  { rewrite uint_short; [reflexivity|lia|exact HR1|exact H1]. }
  destruct (split_at _ 4 r1 H1) as (b & r2 & -> & Hb). rewrite len_app in Hl.
  rewrite (uint_reads 4 b ltac:(lia) Hb pf (pre ++ a) r2 HR1).
  assert (HR2 : rust_slice (((pre ++ a) ++ b) ++ r2)) by (rewrite <- !app_assoc in *; exact HR1).
  destruct (N.lt_ge_cases (len r2) 4) as [H2|H2].
  { rewrite uint_short; [reflexivity|lia|exact HR2|exact H2]. }
  destruct (split_at _ 4 r2 H2) as (c & r3 & -> & Hc). rewrite len_app in Hl.
  rewrite (uint_reads 4 c ltac:(lia) Hc pf _ r3 HR2).
  assert (HR3 : rust_slice ((((pre ++ a) ++ b) ++ c) ++ r3)) by (rewrite <- !app_assoc in *; exact HR2).
  unfold de_signature, de_bind. rewrite next_by_short; [reflexivity|exact HR3|lia|lia].
Qed.

(** ** C39 *)
Lemma snm_serialized : forall m, snm_ok m -> exists enc, wire enc = snm_layout m /\ len enc = 74 /\
  forall w, run vec_writer (ser_snm m) w = (w ++ enc, Ok 74).
Proof.
  intros m (_ & _ & _ & HS). eexists. split; [|split; [|intro w; rewrite ser_snm_run, HS; reflexivity]].
  - unfold snm_layout. rewrite !wire_app, !wire_to_le. reflexivity.
  - rewrite !len_app, !len_to_le, HS. reflexivity.
Qed.
Lemma snm_outcome : forall m pf pre enc rest, snm_ok m -> wire enc = snm_layout m -> rust_slice (pre ++ enc ++ rest) ->
  ((ed_sig_checked E = true -> canonical_sig (sn_signature m)) ->
     de_snm E pf (cursor pre (enc ++ rest)) = (cursor (pre ++ enc) rest, Ok m)) /\
  (ed_sig_checked E = true -> ~ canonical_sig (sn_signature m) ->
     snd (de_snm E pf (cursor pre (enc ++ rest))) = Panic).
Proof.
  intros m pf pre enc rest (Hv & Hf & Ht & HS) HW HR.
  unfold snm_layout in HW. rewrite <- !wire_to_le, <- !wire_app in HW. apply wire_inj in HW. subst enc.
  change cursor with P. rewrite snm_decode; rewrite ?len_to_le; try reflexivity; try assumption.
  rewrite !of_le_to_le by assumption. unfold bad_sig.
  pose proof (canonical_bits (sn_signature m) HS) as CB.
  split.
  - intro H. destruct (ed_sig_checked E).
    + rewrite (proj2 CB (H eq_refl)). cbn. destruct m; reflexivity.
    + cbn. destruct m; reflexivity.
  - intros H NC. rewrite H. destruct (N.land _ _ =? 0) eqn:X; [|reflexivity]. exfalso. apply NC, CB. reflexivity.
Qed.
(** Every 74 bytes are the layout of some message. *)
Lemma snm_onto : forall rest, 74 <= len rest -> exists m enc tail, snm_ok m /\ rest = enc ++ tail /\ wire enc = snm_layout m.
Proof.
  intros rest H.
  destruct (split_at _ 2 rest ltac:(lia)) as (a & r1 & -> & Ha). rewrite len_app in H.
  destruct (split_at _ 4 r1 ltac:(lia)) as (b & r2 & -> & Hb). rewrite len_app in H.
  destruct (split_at _ 4 r2 ltac:(lia)) as (c & r3 & -> & Hc). rewrite len_app in H.
  destruct (split_at _ 64 r3 ltac:(lia)) as (s & r4 & -> & Hs).
  exists (mkSnm (of_le a) (of_le b) (of_le c) s), (a ++ b ++ c ++ s), r4. split.
  - unfold snm_ok. cbn [sn_version sn_valid_from sn_not_valid_after sn_signature].
    pose proof (of_le_bound a). pose proof (of_le_bound b). pose proof (of_le_bound c). rewrite Ha, Hb, Hc in *.
    change (256 ^ 2) with (2 ^ 16) in *. change (256 ^ 4) with (2 ^ 32) in *. auto.
  - split; [rewrite <- !app_assoc; reflexivity|]. unfold snm_layout. cbn [sn_version sn_valid_from sn_not_valid_after sn_signature].
    rewrite !(spec_le_of_le 4) by assumption. rewrite (spec_le_of_le 2) by assumption. rewrite !wire_app. reflexivity.
Qed.
Lemma snm_panic_iff : forall pf pre rest, rust_slice (pre ++ rest) ->
  (snd (de_snm E pf (cursor pre rest)) = Panic <->
   ed_sig_checked E = true /\ 74 <= len rest /\ ~ canonical_sig (firstn 64 (skipn 10 rest))).
Proof.
  intros pf pre rest HR. destruct (N.lt_ge_cases (len rest) 74) as [L|L].
  { change cursor with P. rewrite snm_short by assumption. split; [discriminate|lia]. }
  destruct (snm_onto rest L) as (m & enc & tail & Hm & -> & HW).
  destruct (snm_outcome m pf pre enc tail Hm HW HR) as [A B].
  assert (SE : firstn 64 (skipn 10 (enc ++ tail)) = sn_signature m).
  { unfold snm_layout in HW. rewrite <- !wire_to_le, <- !wire_app in HW. apply wire_inj in HW. subst enc.
    destruct Hm as (_ & _ & _ & X).
    replace (skipn 10 _) with (sn_signature m ++ tail).
    - change 64%nat with (N.to_nat 64). rewrite <- X. apply firstn_len_app.
    - symmetry. rewrite <- !app_assoc. rewrite 2!app_assoc. change 10%nat with (N.to_nat 10).
      replace 10 with (len ((to_le 2 (sn_version m) ++ to_le 4 (sn_valid_from m)) ++ to_le 4 (sn_not_valid_after m)))
        by (rewrite !len_app, !len_to_le; reflexivity).
      apply skipn_len_app. }
  rewrite SE. split; [intro H|intros (H & _ & NC); apply B; assumption]. destruct (ed_sig_checked E) eqn:EC.
  - split; [reflexivity|]. split; [exact L|]. intro CS. rewrite A in H; [discriminate|auto].
  - rewrite A in H; [discriminate|intro; discriminate].
Qed.

(** ** C40 *)
Lemma cf_new_exact : forall text static m,
  ((forall k, ~ base58 text k) -> cf_new E text static m = Err Base58Error) /\
  (forall k, base58 text k ->
     cf_new E text static m =
       if len k =? 32 then if ed_valid E k then Ok (mkCf k static m) else Err AuthorityKeyError else Err ParseError).
Proof.
  intros text static m. destruct (base58_from_spec text) as [A B]. unfold cf_new. split.
  - intro H. destruct B as [ [k Bk] | B ]; [exfalso; eapply H; exact Bk | rewrite B; reflexivity].
  - intros k Hk. rewrite (proj2 (A k) Hk). reflexivity.
Qed.

(** ** C37 *)
Lemma verify_exact : forall now c,
  let m := cf_message c in
  exists signed, wire signed = cert_layout (sn_version m) (sn_valid_from m) (sn_not_valid_after m) (cf_static c) /\
  cf_verify E now c =
    if (now <? 0)%Z then Err SystemTimeError
    else if sn_not_valid_after m <=? Z.to_N (now / 10 ^ 9) mod 2 ^ 32 then Err RequirementError
    else if ed_verify E (cf_authority c) signed (sn_signature m) then Ok tt else Err AuthorityKeyError.
Proof.
  intros now c m. eexists. split; [apply wire_cert|].
  unfold cf_verify, system_unix_time_to_u32. fold m. destruct (now <? 0)%Z; [reflexivity|]. cbn [obind].
  change (10 ^ 9)%Z with 1000000000%Z. destruct (_ <=? _); [reflexivity|].
  rewrite ser_cf_bytes. cbn [obind]. fold m. reflexivity.
Qed.
Lemma layout_binds : forall v f t k v' f' t' k',
  v < 2 ^ 16 -> f < 2 ^ 32 -> t < 2 ^ 32 -> v' < 2 ^ 16 -> f' < 2 ^ 32 -> t' < 2 ^ 32 ->
  cert_layout v f t k = cert_layout v' f' t' k' -> v = v' /\ f = f' /\ t = t' /\ k = k'.
Proof.
  intros v f t k v' f' t' k' Hv Hf Ht Hv' Hf' Ht' H. rewrite <- !wire_cert in H. apply wire_inj in H.
  apply app_inj_len in H; [|rewrite !len_to_le; reflexivity]. destruct H as [H1 H].
  apply app_inj_len in H; [|rewrite !len_to_le; reflexivity]. destruct H as [H2 H].
  apply app_inj_len in H; [|rewrite !len_to_le; reflexivity]. destruct H as [H3 H].
  apply (f_equal of_le) in H1, H2, H3. rewrite !of_le_to_le in H1, H2, H3 by assumption. auto.
Qed.

(** ** C36 *)
Theorem pool_verifies : forall kp v f t key text now pf pre rest, ed_ok E -> ed_pair E kp ->
  v < 2 ^ 16 -> f < t -> t < 2 ^ 32 -> base58 text (ek_public kp) ->
  (0 <= now)%Z -> Z.to_N (now / 10 ^ 9) mod 2 ^ 32 < t ->
  exists cert m enc cf,
    cert_new v f t key = Ok cert /\ from_auth_key E kp cert = Ok m /\ serialize (ser_snm m) = Ok enc /\
    (rust_slice (pre ++ enc ++ rest) -> de_snm E pf (cursor pre (enc ++ rest)) = (cursor (pre ++ enc) rest, Ok m)) /\
    cf_new E text key m = Ok cf /\ cf_verify E now cf = Ok tt.
Proof.
  intros kp v f t key text now pf pre rest OK (PL & PV & PS) Hv Hf Ht HB Hn Hnow.
  destruct (cert_new_exact v f t key) as [CN _]. exists (mkCert v f t key).
  set (signed := to_le 2 v ++ to_le 4 f ++ to_le 4 t ++ key).
  exists (mkSnm v f t (ed_sign E kp signed)).
  assert (SO : snm_ok (mkSnm v f t (ed_sign E kp signed))).
  { unfold snm_ok. cbn [sn_version sn_valid_from sn_not_valid_after sn_signature]. repeat split; try assumption; [lia|apply (ed_sig_len E OK)]. }
  destruct (snm_serialized _ SO) as (enc & HW & HL & HR). exists enc. eexists.
  split; [apply CN; exact Hf|]. split.
  { unfold from_auth_key, authority_sign_cert. rewrite ser_cert_bytes. reflexivity. }
  split; [unfold serialize; rewrite HR; reflexivity|].
  split. { intro R. apply (snm_outcome _ pf pre enc rest SO HW R). intros _. apply (ed_sig_high E OK). }
  split.
  { destruct (cf_new_exact text key (mkSnm v f t (ed_sign E kp signed))) as [_ X]. rewrite (X _ HB), PL, PV. reflexivity. }
  unfold cf_verify, system_unix_time_to_u32. cbn [cf_message sn_not_valid_after].
  assert (A1 : (now <? 0)%Z = false) by lia. rewrite A1. cbn [obind].
  change (10 ^ 9)%Z with 1000000000%Z in Hnow.
  assert (A2 : (t <=? Z.to_N (now / 1000000000) mod 2 ^ 32) = false) by lia. rewrite A2.
  rewrite ser_cf_bytes. cbn [obind cf_message cf_authority cf_static sn_version sn_valid_from sn_not_valid_after sn_signature].
  fold signed. rewrite PS. reflexivity.
Qed.

(** ** C38 *)
Lemma verify_before_expiry : forall now c, (now < 2 ^ 32 * 10 ^ 9)%Z -> cf_verify E now c = Ok tt ->
  (0 <= now < Z.of_N (sn_not_valid_after (cf_message c)) * 10 ^ 9)%Z.
Proof.
  intros now c Hn H. destruct (verify_exact now c) as (signed & _ & V). rewrite V in H.
  destruct (now <? 0)%Z eqn:E0; [discriminate|].
  destruct (_ <=? _) eqn:E1; [discriminate|].
  assert (B : (0 <= now / 10 ^ 9 < 2 ^ 32)%Z).
  { split; [apply Z.div_pos; lia|]. apply Z.div_lt_upper_bound; lia. }
  rewrite N.mod_small in E1 by lia.
  split; [lia|]. pose proof (Z.mul_div_le now (10 ^ 9) ltac:(lia)). pose proof (Z.mod_pos_bound now (10 ^ 9) ltac:(lia)).
  pose proof (Z.div_mod now (10 ^ 9) ltac:(lia)). nia.
Qed.
End Ed.

(** ** A signature scheme for the examples: a keyed hash, so that both keys are the same. *)
Definition d_tag (k m : bytes) : bytes := Crypto.blake2s (k ++ m) ++ repeat x00 32.
Definition demo_ed (checked : bool) : ed_ops :=
  mkEd (fun k => len k =? 32) (fun kp m => d_tag (ek_secret kp) m) (fun k m s => bytes_eqb s (d_tag k m)) checked.
Lemma demo_ed_ok : forall ch, ed_ok (demo_ed ch).
Proof.
  intro ch. constructor; intros kp m; cbn [demo_ed ed_sign]; unfold d_tag;
  pose proof (CryptoFacts.blake2s_len (ek_secret kp ++ m)) as L; set (h := Crypto.blake2s (ek_secret kp ++ m)) in *; clearbody h.
  - rewrite len_app, L. reflexivity.
  - replace (skipn 63 (h ++ repeat x00 32)) with [x00]; [reflexivity|].
    assert (length h = 32%nat) by (unfold len in L; lia).
    rewrite skipn_app, skipn_all2 by lia. rewrite H. reflexivity.
Qed.
Definition d_key : bytes := map b8 (map N.of_nat (seq 1 32)).
Definition d_kp := mkEdKeypair d_key d_key.
Lemma demo_pair : forall ch, ed_pair (demo_ed ch) d_kp.
Proof. intro ch. split; [reflexivity|]. split; [reflexivity|]. intro m. apply bytes_eqb_refl. Qed.
(** The base58 text of [d_key]. *)
Definition d_text : bytes := list_byte_of_string "4wBqpZM9xaSheZzJSMawUKKwhdpChKbZ5eu5ky4Vigw".

Lemma accepts_only_signed : forall E now c (issued : list (N * N * N * bytes)),
  (forall v f t k, In (v, f, t, k) issued -> v < 2 ^ 16 /\ f < 2 ^ 32 /\ t < 2 ^ 32) ->
  snm_ok (cf_message c) ->
  (forall m s, ed_verify E (cf_authority c) m s = true ->
     exists v f t k, In (v, f, t, k) issued /\ wire m = cert_layout v f t k) ->
  cf_verify E now c = Ok tt ->
  In (sn_version (cf_message c), sn_valid_from (cf_message c), sn_not_valid_after (cf_message c), cf_static c) issued.
Proof.
  intros E now c issued HB (Hv & Hf & Ht & _) HU H.
  destruct (verify_exact E now c) as (signed & HW & V). rewrite V in H.
  destruct (now <? 0)%Z; [discriminate|]. destruct (_ <=? _); [discriminate|].
  destruct (ed_verify _ _ _ _) eqn:EV; [|discriminate].
  destruct (HU _ _ EV) as (v & f & t & k & HI & HL). destruct (HB _ _ _ _ HI) as (Bv & Bf & Bt).
  rewrite HW in HL. apply layout_binds in HL; try assumption. destruct HL as (-> & -> & -> & ->). exact HI.
Qed.
Lemma verify_iff : forall E now c,
  let m := cf_message c in
  exists signed, wire signed = cert_layout (sn_version m) (sn_valid_from m) (sn_not_valid_after m) (cf_static c) /\
  ((now < 0)%Z -> cf_verify E now c = Err SystemTimeError) /\
  ((0 <= now)%Z -> sn_not_valid_after m <= Z.to_N (now / 10 ^ 9) mod 2 ^ 32 -> cf_verify E now c = Err RequirementError) /\
  ((0 <= now)%Z -> Z.to_N (now / 10 ^ 9) mod 2 ^ 32 < sn_not_valid_after m ->
     cf_verify E now c = if ed_verify E (cf_authority c) signed (sn_signature m) then Ok tt else Err AuthorityKeyError).
Proof.
  intros E now c m. destruct (verify_exact E now c) as (signed & HW & V). exists signed. split; [exact HW|].
  rewrite V. clear V. fold m. clearbody m. set (x := Z.to_N (now / 10 ^ 9) mod 2 ^ 32) in *. clearbody x.
  repeat split; intros.
  - destruct (now <? 0)%Z eqn:X; [reflexivity|lia].
  - destruct (now <? 0)%Z eqn:X; [lia|]. destruct (_ <=? _) eqn:Y; [reflexivity|lia].
  - destruct (now <? 0)%Z eqn:X; [lia|]. destruct (_ <=? _) eqn:Y; [lia|reflexivity].
Qed.

(** A certificate accepted before it is valid, and one accepted 136 years after it expired. *)
Definition d_cf (f t : N) : certificate_format :=
  mkCf d_key d_key (mkSnm 0 f t (d_tag d_key (to_le 2 0 ++ to_le 4 f ++ to_le 4 t ++ d_key))).
Lemma early_accepted : cf_verify (demo_ed true) (1000 * 10 ^ 9)%Z (d_cf 2000 3000) = Ok tt.
Proof. vm_compute. reflexivity. Qed.
Lemma late_accepted : cf_verify (demo_ed true) (4294968000 * 10 ^ 9)%Z (d_cf 500 1000) = Ok tt.
Proof. vm_compute. reflexivity. Qed.

(** ** A message put together from a certificate and a signature made separately *)
Lemma from_parts : forall E kp c s, authority_sign_cert E kp c = Ok s -> from_auth_key E kp c = Ok (snm_new c s).
Proof. intros E kp c s H. unfold from_auth_key. rewrite H. reflexivity. Qed.
Lemma parts_verify : forall E kp v f t key text now, ed_ok E -> ed_pair E kp ->
  v < 2 ^ 16 -> f < t -> t < 2 ^ 32 -> base58 text (ek_public kp) ->
  (0 <= now)%Z -> Z.to_N (now / 10 ^ 9) mod 2 ^ 32 < t ->
  exists cert s cf, cert_new v f t key = Ok cert /\ authority_sign_cert E kp cert = Ok s /\
    from_auth_key E kp cert = Ok (snm_new cert s) /\
    cf_new E text key (snm_new cert s) = Ok cf /\ cf_verify E now cf = Ok tt.
Proof.
  intros E kp v f t key text now H1 H2 H3 H4 H5 H6 H7 H8.
  destruct (pool_verifies E kp v f t key text now Debug [] [] H1 H2 H3 H4 H5 H6 H7 H8)
    as (cert & m & enc & cf & A & B & _ & _ & C & D).
  pose proof B as B2. unfold from_auth_key in B2. destruct (authority_sign_cert E kp cert) as [s|e|] eqn:S; try discriminate B2.
  pose proof (from_parts E kp cert s S) as FP. assert (M : m = snm_new cert s) by congruence. subst m.
  exists cert, s, cf. repeat split; assumption.
Qed.
