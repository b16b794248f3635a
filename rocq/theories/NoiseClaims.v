(** * NoiseClaims: the remaining lemmas about nx-noise behind the property theorems. *)
From Coq Require Import Lia ZifyBool ZifyNat ZifyN.
From Verif Require Import Base SpecWire BaseFacts Noise SpecNoise SpecSession NoiseFacts HandshakeProofs NxProofs
  SessionProofs NetProofs RecvProofs.
Open Scope N_scope.

(** ** Hexadecimal keys *)
Lemma hex_digit_spec : forall c v, hex_digit c = Some v <-> exists n, hex_value c n /\ v = N.of_nat n.
Proof.
  intros c v. split.
  - assert (H : match hex_digit c with
                | Some v => nth_error hex_lower (N.to_nat v) = Some c \/ nth_error hex_upper (N.to_nat v) = Some c
                | None => True end) by (destruct c; vm_compute; auto).
    intro E. rewrite E in H. exists (N.to_nat v). split; [exact H|]. lia.
  - intros [n [H ->]].
    assert (A : Forall (fun p => hex_digit (snd p) = Some (N.of_nat (fst p)))
                 (combine (seq 0 16) hex_lower ++ combine (seq 0 16) hex_upper)).
    { vm_compute. repeat constructor. }
    rewrite Forall_forall in A.
    assert (In (n, c) (combine (seq 0 16) hex_lower ++ combine (seq 0 16) hex_upper)).
    { apply in_or_app. destruct H as [H|H]; [left|right];
        (destruct n as [|n]; [injection H as <-; vm_compute; auto|]);
        do 15 (destruct n as [|n]; [injection H as <-; vm_compute; tauto|]); exfalso;
        destruct n; discriminate. }
    exact (A _ H0).
Qed.

Lemma hex_decode_spec : forall s k, hex_decode s = Some k <-> hex_text s k.
Proof.
  intros s. assert (P : forall n s, (length s <= n)%nat -> forall k, hex_decode s = Some k <-> hex_text s k).
  { clear s. induction n as [|n IH]; intros s L k.
    - destruct s; [|cbn in L; lia]. split; [intro H; injection H as <-; constructor|intro H; inversion H; reflexivity].
    - destruct s as [|a [|b t]].
      + split; [intro H; injection H as <-; constructor|intro H; inversion H; reflexivity].
      + split; [discriminate|intro H; inversion H].
      + cbn [hex_decode]. cbn [length] in L. specialize (IH t ltac:(lia)). split.
        * destruct (hex_digit a) as [x|] eqn:EA; [|discriminate].
          destruct (hex_digit b) as [y|] eqn:EB; [|discriminate].
          destruct (hex_decode t) as [r|] eqn:ET; [|discriminate]. intro H. injection H as <-.
          apply hex_digit_spec in EA. destruct EA as [v [Hv ->]].
          apply hex_digit_spec in EB. destruct EB as [w [Hw ->]].
          apply hex_pair; auto. apply IH. reflexivity.
        * intro H. inversion H; subst.
          rewrite (proj2 (hex_digit_spec a (N.of_nat v))) by eauto.
          rewrite (proj2 (hex_digit_spec b (N.of_nat w))) by eauto.
          rewrite (proj2 (IH k0)) by assumption. reflexivity. }
  intro k. apply (P (length s)). lia.
Qed.

Lemma hex_text_len : forall s k, hex_text s k -> len s = 2 * len k.
Proof. intros s k H. induction H; [reflexivity|]. rewrite !len_cons. lia. Qed.

Lemma decode_str_32_spec : forall s,
  (forall k, decode_str_32 s = Ok k <-> len s = 64 /\ hex_text s k) /\
  ((exists k, decode_str_32 s = Ok k) \/ decode_str_32 s = Err InvalidInputError).
Proof.
  intro s. unfold decode_str_32. destruct (hex_decode s) as [x|] eqn:E.
  - apply hex_decode_spec in E. pose proof (hex_text_len _ _ E) as L.
    destruct (len x =? 32) eqn:E2.
    + split; [|eauto]. intro k. split.
      * intro H. injection H as <-. split; [lia|exact E].
      * intros [_ H]. apply hex_decode_spec in H. apply hex_decode_spec in E. rewrite E in H. injection H as <-. reflexivity.
    + split; [|auto]. intro k. split; [discriminate|]. intros [H _]. lia.
  - split; [|auto]. intro k. split; [discriminate|]. intros [_ H]. apply hex_decode_spec in H. congruence.
Qed.

Lemma hex_value_ex : forall v, (v < 16)%nat -> exists c, hex_value c v.
Proof.
  intros v H. destruct (nth_error hex_lower v) as [c|] eqn:E; [exists c; left; exact E|].
  apply nth_error_None in E. change (length hex_lower) with 16%nat in E. lia.
Qed.
Lemma hex_text_total : forall k, exists s, hex_text s k.
Proof.
  induction k as [|a k [s IH]]; [exists []; constructor|].
  pose proof (to_N_lt a) as B.
  destruct (hex_value_ex (N.to_nat (Byte.to_N a / 16))) as [c Hc].
  { assert (Byte.to_N a / 16 < 16) by (apply N.div_lt_upper_bound; lia). lia. }
  destruct (hex_value_ex (N.to_nat (Byte.to_N a mod 16))) as [d Hd].
  { assert (Byte.to_N a mod 16 < 16) by (apply N.mod_lt; lia). lia. }
  exists (c :: d :: s).
  replace a with (b8 (16 * N.of_nat (N.to_nat (Byte.to_N a / 16)) + N.of_nat (N.to_nat (Byte.to_N a mod 16)))).
  - apply hex_pair; assumption.
  - rewrite !N2Nat.id, <- N.div_mod' . apply b8_to_N.
Qed.

Section Claims.
Variable C : crypto.
Hypothesis OK : crypto_ok C.
Notation Z := EMPTY_KEY.

(** ** The honest exchange, with the exceptional case in the specification's terms *)
Lemma started_len1 : forall pro s rnd e S0 b i, started C i pro s rnd e S0 -> 32 <= len b <= 65535 -> keypair_ok e ->
  out (send_message C rnd S0 b) = kp_public e ++ skipn 32 b.
Proof.
  intros * HS Hb Ke. destruct (started_state C _ _ _ _ _ _ HS) as [e0 [-> HE]].
  rewrite (send_a C rnd _ s e0 e) by assumption. reflexivity.
Qed.

Lemma responder_ok : forall pro sr er rnd R0 pe rest b2,
  started C false pro sr rnd er R0 -> keypair_ok sr -> keypair_ok er -> len pe = 32 -> ~ low_order pe ->
  48 <= len (pe ++ rest) <= 65535 -> 96 <= len b2 <= 65535 ->
  ~ In zeros32 (nx_keys C pro sr er (pe ++ rest) (payload2 b2)) ->
  res (send_message C rnd (st (recv_message C R0 (pe ++ rest))) b2) = Ok tt.
Proof.
  intros * HS Ks Ke Hpe Hlo Hb Hb2 NZ.
  destruct (nx_read_1 C OK pro sr er rnd false R0 pe rest HS Hpe Hlo Hb)
    as (p1 & E1 & _ & _ & ss & e0 & h & c1 & c2 & ES & HE & R & _ & P1 & P2 & P3 & P4 & P5 & P6).
  rewrite ES. unfold nx_keys in NZ. rewrite E1 in NZ.
  destruct (nx_write_2 C OK rnd ss sr e0 er Z pe Z h c1 c2 false p1 b2 Ks Ke Hpe Hb2 HE R P1 P2 P4 P5)
    as (p2 & msg & E2 & W & _).
  unfold payload2 in NZ. rewrite E2 in NZ. rewrite P6 in W. cbn [length] in W. rewrite skipn_O in W.
  apply W. exact NZ.
Qed.

Theorem agreement : forall pro si sr ei er rnd1 rnd2 I0 R0 b1 b2,
  honest C pro si sr ei er rnd1 rnd2 I0 R0 ->
  48 <= len b1 <= 65535 -> 96 <= len b2 <= 2128 ->
  let x1 := send_message C rnd1 I0 b1 in
  let x2 := recv_message C R0 (out x1) in
  let x3 := send_message C rnd2 (st x2) b2 in
  let x4 := recv_message C (st x1) (out x3) in
  ~ In zeros32 (nx_keys C pro sr er (out x1) (payload2 b2)) ->
  res x1 = Ok tt /\ res x2 = Ok tt /\ res x3 = Ok tt /\ res x4 = Ok tt /\
  is_transport (st x3) = true /\ is_transport (st x4) = true /\
  (exists h, get_handshake_hash (st x3) = Some h /\ get_handshake_hash (st x4) = Some h) /\
  get_remote_static_public_key (st x4) = Some (kp_public sr) /\
  se_cs1 (st x3) = se_cs1 (st x4) /\ se_cs2 (st x3) = se_cs2 (st x4) /\
  skipn 32 (out x2) = skipn 32 b1 /\ payload2 (out x4) = payload2 b2.
Proof.
  intros * [Ksi Ksr Kei Ker HI HR L1 L2 L3 D1 D2] Hb1 Hb2 x1 x2 x3 x4 NZ.
  assert (O1 : out x1 = kp_public ei ++ skipn 32 b1) by (apply (started_len1 pro si rnd1 ei I0 b1 true); auto; lia).
  assert (X3 : res x3 = Ok tt).
  { unfold x3, x2. rewrite O1 in *. apply (responder_ok pro sr er rnd2 R0 (kp_public ei) (skipn 32 b1) b2); auto; try apply Kei; try lia.
    rewrite len_app, len_skipn, (proj2 Kei). lia. }
  pose proof (exchange C OK pro si sr ei er rnd1 rnd2 I0 R0 b1 b2 Ksi Ksr Kei Ker HI HR L1 L2 L3 D1 D2 Hb1 Hb2) as X.
  cbv zeta in X. fold x1 in X. fold x2 in X. fold x3 in X. fold x4 in X.
  destruct X as (A1 & A2 & _ & A4 & X). specialize (X ltac:(rewrite X3; discriminate)).
  destruct X as (B1 & B2 & s4 & m1 & m2 & hr & hi & M1 & M2 & Hh & Hi & Hr & E3 & E4 & LO & O4).
  rewrite E3, E4. unfold is_transport, get_handshake_hash, get_remote_static_public_key.
  cbn [se_transport se_h se_hs se_cs1 se_cs2].
  do 4 (split; [assumption|]). split; [reflexivity|]. split; [reflexivity|].
  split; [eauto|]. split; [rewrite Hi; reflexivity|]. split; [reflexivity|]. split; [reflexivity|].
  split. { rewrite A4, O1. apply skipn_app_exact. rewrite (proj2 Kei). reflexivity. }
  rewrite O4. fold (payload2 b2).
  assert (LP : len (payload2 b2) = len b2 - 96).
  { unfold payload2. rewrite len_firstn', len_skipn. unfold len in *. lia. }
  unfold payload2 at 1. rewrite app_assoc, skipn_app_exact.
  2:{ rewrite !len_app, (proj2 Ker), (proj2 Ksr), M1. reflexivity. }
  apply firstn_app_exact. rewrite !app_length. 
  destruct Ker as [_ Ker], Ksr as [_ Ksr]. unfold len in *. lia.
Qed.

(** ** Buffers keep their length *)
Lemma split_mac_some : forall b x y, split_mac b = Some (x, y) -> b = x ++ y /\ len y = 16.
Proof.
  intros b x y H. unfold split_mac, MAC_LENGTH in H. destruct (len b <? 16) eqn:E; [discriminate|].
  injection H as <- <-. split; [symmetry; apply firstn_skipn|]. rewrite len_skipn. unfold len in *. lia.
Qed.
Lemma dec_len : forall c ad ct mac, len (snd (fst (cs_decrypt_with_ad C c ad ct mac))) = len ct.
Proof.
  intros. unfold cs_decrypt_with_ad. destruct (nonce_get _); try reflexivity.
  destruct (cs_has_key c); [|reflexivity].
  pose proof (open_len C OK (from_slice_hashlen (cs_k c)) (prep_nonce a) ad ct mac) as L.
  destruct (c_open _ _ _ _ _ _) as [[] pt]; exact L.
Qed.
Lemma dah_len : forall s b, len (snd (fst (decrypt_and_hash C s b))) = len b.
Proof.
  intros s b. unfold decrypt_and_hash. destruct (2048 <? len b); [reflexivity|].
  destruct (split_mac b) as [[ct mac]|] eqn:E; [|reflexivity].
  apply split_mac_some in E. destruct E as [-> Hm].
  pose proof (dec_len (ss_cs s) (ss_h s) ct mac) as L.
  destruct (cs_decrypt_with_ad _ _ _ _ _) as [[c' pt] [r|e|]]; cbn [fst snd] in *; rewrite !len_app; lia.
Qed.
Lemma read_b_len : forall h b, len (snd (fst (read_message_b C h b))) = len b.
Proof.
  intros h b. unfold read_message_b. destruct (len b <? 48) eqn:E; [reflexivity|].
  destruct (public_key_from_bytes _); try reflexivity.
  destruct (len (skipn DHLEN b) <? 48) eqn:E2; [reflexivity|].
  assert (L : len (firstn DHLEN b) + (len (firstn 48 (skipn DHLEN b)) + len (skipn 48 (skipn DHLEN b))) = len b).
  { rewrite <- !len_app, !firstn_skipn. reflexivity. }
  match goal with |- context [decrypt_and_hash C ?s ?x] => pose proof (dah_len s x) as L1;
    destruct (decrypt_and_hash C s x) as [[ss1 rs] [r|e|]] end; cbn [fst snd] in L1 |- *; try (rewrite !len_app; lia).
  destruct (public_key_from_bytes (from_slice_hashlen rs)); try (cbn [fst snd]; rewrite !len_app; lia).
  match goal with |- context [decrypt_and_hash C ?s ?x] => pose proof (dah_len s x) as L2;
    destruct (decrypt_and_hash C s x) as [[ss2 rest] [r2|e|]] end; cbn [fst snd] in L2 |- *; try (rewrite !len_app; lia).
  destruct (split C ss2). cbn [fst snd]. rewrite !len_app. lia.
Qed.
Lemma read_regular_len : forall c b, len (snd (fst (cs_read_message_regular C c b))) = len b.
Proof.
  intros c b. unfold cs_read_message_regular. destruct (split_mac b) as [[ct mac]|] eqn:E; [|reflexivity].
  apply split_mac_some in E. destruct E as [-> Hm]. pose proof (dec_len c [] ct mac) as L.
  destruct (cs_decrypt_with_ad _ _ _ _ _) as [[c' pt] r]. cbn [fst snd] in *. rewrite !len_app. lia.
Qed.
Lemma recv_len : forall s b, len (out (recv_message C s b)) = len b.
Proof.
  intros s b. unfold recv_message, out.
  match goal with |- context [if ?c then _ else _] => destruct c; [reflexivity|] end.
  destruct (se_mc s =? 0).
  { unfold read_message_a. destruct (len b <? 48); [reflexivity|].
    destruct (public_key_from_bytes _); reflexivity. }
  destruct (se_mc s =? 1).
  { pose proof (read_b_len (se_hs s) b) as L.
    destruct (read_message_b _ _ _) as [[h b'] [[[x y] z]|e|]]; exact L. }
  destruct (se_i s).
  - pose proof (read_regular_len (se_cs2 s) b) as L. destruct (cs_read_message_regular _ _ _) as [[c b'] [[]|e|]]; exact L.
  - pose proof (read_regular_len (se_cs1 s) b) as L. destruct (cs_read_message_regular _ _ _) as [[c b'] [[]|e|]]; exact L.
Qed.

(** ** Both sides implement NX *)
Theorem nx_initiator : forall pro si ei rnd I0 b1 m2,
  started C true pro si rnd ei I0 -> keypair_ok ei -> 32 <= len b1 <= 65535 -> 16 <= len m2 <= 2128 ->
  let x1 := send_message C rnd I0 b1 in
  let x4 := recv_message C (st x1) m2 in
  exists p1, WriteMessage C (Initialize C true pro si ei) NX1 (skipn 32 b1) = Some (p1, out x1) /\
    res x1 = Ok tt /\
    match ReadMessage C p1 NX2 m2 with
    | None => res x4 <> Ok tt
    | Some (p2, payload) =>
        (res x4 = Ok tt <->
           ~ low_order (firstn 32 m2) /\ (forall k, p_rs p2 = Some k -> ~ low_order k) /\
           ~ In zeros32 (sy_keys (p_sym p2))) /\
        (res x4 = Ok tt ->
           get_handshake_hash (st x4) = Some (sy_h (p_sym p2)) /\
           get_remote_static_public_key (st x4) = p_rs p2 /\
           se_cs1 (st x4) = mkCS (fst (Split C (p_sym p2))) 0 /\
           se_cs2 (st x4) = mkCS (snd (Split C (p_sym p2))) 0 /\
           payload2 (out x4) = payload)
    end.
Proof.
  intros * HS Ke Hb1 Hm2 x1 x4.
  destruct (nx_write_1 C OK pro si ei rnd true I0 b1 HS Hb1)
    as (p1 & E1 & R1 & ss & h & c1 & c2 & ES & R & _ & P1 & P2 & P3 & P4 & P5 & P6).
  exists p1. split; [exact E1|]. split; [exact R1|].
  unfold x4, x1. rewrite ES.
  pose proof (nx_read_2 C OK ss si ei Z Z Z h c1 c2 false p1 m2 R P1 P5 Hm2) as X. cbv zeta in X.
  destruct (ReadMessage C p1 NX2 m2) as [[p2 payload]|]; [|exact X].
  destruct X as (HL & X1 & X2). rewrite P6 in X1. cbn [length] in X1. rewrite skipn_O in X1.
  split; [exact X1|]. intro HR. destruct (X2 HR) as (T & M & Hh & Hrs & F1 & F2 & F3).
  unfold get_handshake_hash, get_remote_static_public_key. rewrite T, Hh, Hrs.
  repeat (split; [first [reflexivity|assumption]|]).
  assert (LO : length (out (recv_message C (mkSession (mkHS ss si ei Z Z Z) h c1 c2 1 true false) m2)) = length m2).
  { apply Nat2N.inj. apply recv_len. }
  unfold payload2. rewrite LO. exact F3.
Qed.

Theorem nx_responder : forall pro sr er rnd R0 m1 b2,
  started C false pro sr rnd er R0 -> keypair_ok sr -> keypair_ok er ->
  48 <= len m1 <= 65535 -> ~ low_order (firstn 32 m1) -> 96 <= len b2 <= 65535 ->
  let x2 := recv_message C R0 m1 in
  let x3 := send_message C rnd (st x2) b2 in
  exists p1 p2 msg,
    ReadMessage C (Initialize C false pro sr er) NX1 m1 = Some (p1, skipn 32 m1) /\
    res x2 = Ok tt /\ out x2 = m1 /\
    WriteMessage C p1 NX2 (payload2 b2) = Some (p2, msg) /\
    (res x3 = Ok tt <-> ~ In zeros32 (sy_keys (p_sym p2))) /\
    (res x3 = Ok tt ->
       out x3 = msg /\ get_handshake_hash (st x3) = Some (sy_h (p_sym p2)) /\
       se_cs1 (st x3) = mkCS (fst (Split C (p_sym p2))) 0 /\
       se_cs2 (st x3) = mkCS (snd (Split C (p_sym p2))) 0).
Proof.
  intros * HS Ks Ke Hm1 Hlo Hb2 x2 x3.
  destruct (split_at _ 32 m1 ltac:(lia)) as [pe [rest [-> Hpe]]].
  rewrite firstn_app_exact in Hlo by (rewrite Hpe; reflexivity).
  destruct (nx_read_1 C OK pro sr er rnd false R0 pe rest HS Hpe Hlo Hm1)
    as (p1 & E1 & R1 & O1 & ss & e0 & h & c1 & c2 & ES & HE & R & _ & P1 & P2 & P3 & P4 & P5 & P6).
  destruct (nx_write_2 C OK rnd ss sr e0 er Z pe Z h c1 c2 false p1 b2 Ks Ke Hpe Hb2 HE R P1 P2 P4 P5)
    as (p2 & msg & E2 & W & V).
  rewrite P6 in W, V. cbn [length] in W, V. rewrite skipn_O in W, V.
  exists p1, p2, msg. rewrite skipn_app_exact by (rewrite Hpe; reflexivity).
  split; [exact E1|]. split; [exact R1|]. split; [exact O1|]. split; [exact E2|].
  unfold x3, x2. rewrite ES.
  split; [split; [intros HR IZ; rewrite (V IZ) in HR; discriminate|intro NZ; apply W; exact NZ]|].
  intro HR. destruct W as (_ & W1 & W2 & W3 & W4 & W5 & W6).
  { intro IZ. rewrite (V IZ) in HR. discriminate. }
  unfold get_handshake_hash. rewrite W2, W4. auto.
Qed.
End Claims.
