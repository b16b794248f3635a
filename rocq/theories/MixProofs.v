(** * MixProofs: the mixing operations on any sequence of calls. *)
From Coq Require Import Lia ZifyBool ZifyNat ZifyN.
From Verif Require Import Base SpecWire BaseFacts Noise SpecNoise SpecSession SpecMix NoiseFacts NxProofs.
Local Open Scope N_scope.

Section P.
Variable C : crypto.
Hypothesis OK : crypto_ok C.

Lemma init_any : forall name, rel (initialize_symmetric C name) (InitializeSymmetric C name).
Proof.
  intro name. unfold initialize_symmetric, InitializeSymmetric.
  assert (E : (if len name <? 32 then name ++ repeat x00 (32 - length name)
     else if len name =? 32 then from_slice_hashlen name else hash C name) =
     (if len name <=? 32 then name ++ repeat (b8 0) (32 - length name) else c_hash C name)
     /\ len (if len name <=? 32 then name ++ repeat (b8 0) (32 - length name) else c_hash C name) = 32).
  { change (b8 0) with x00. destruct (len name <? 32) eqn:A; destruct (len name <=? 32) eqn:B; try (unfold len in *; lia).
    - split; [reflexivity|]. rewrite len_app. unfold len in *. rewrite repeat_length. lia.
    - assert (len name = 32) by lia. rewrite (proj2 (N.eqb_eq _ _) H). split.
      + unfold from_slice_hashlen. rewrite firstn_exact by exact H. replace (32 - length name)%nat with O by (unfold len in *; lia).
        cbn [repeat]. rewrite app_nil_r. reflexivity.
      + rewrite len_app, H. unfold len in *. rewrite repeat_length. lia.
    - rewrite (hash_eq C OK). destruct (len name =? 32) eqn:D; [lia|]. split; [reflexivity|]. apply (hash_len C OK). }
  destruct E as [E L]. cbv zeta. rewrite E. 
  constructor; cbn [sy_ck sy_h sy_n sy_k ss_ck ss_h ss_cs cs_new cs_n cs_k]; try reflexivity; try assumption.
  unfold from_slice_hashlen. apply firstn_exact. exact L.
Qed.

Lemma mkah_rel : forall ss sy d, rel ss sy -> rel (mix_key_and_hash C ss d) (MixKeyAndHash C sy d).
Proof.
  intros ss sy d [A B D E F]. unfold mix_key_and_hash, MixKeyAndHash.
  rewrite A, hkdf3_spec by (try exact OK; rewrite E; discriminate).
  assert (L : let '(a, b, c) := HKDF C (sy_ck sy) d in len a = 32 /\ len c = 32)
    by (unfold HKDF; split; apply (HMAC_len C OK)).
  destruct (HKDF C (sy_ck sy) d) as [[a b] c]. destruct L as [L1 L2]. cbv zeta.
  rewrite firstn_exact by exact L2.
  destruct (mix_hash_fields C OK (mkSS (ss_cs ss) a (ss_h ss)) b) as (G1 & G2 & G3).
  constructor; cbn [sy_ck sy_h sy_n sy_k ss_ck ss_h ss_cs cs_from_key cs_n cs_k MixHash]; try assumption; try reflexivity.
  - rewrite G3. cbn [ss_h]. rewrite B. reflexivity.
  - split; [reflexivity|exact L2].
Qed.

Lemma mixed_rel : forall ms ss sy, rel ss sy -> rel (fold_left (code_mix C) ms ss) (fold_left (mix C) ms sy).
Proof.
  induction ms as [|m ms IH]; intros ss sy H; [exact H|]. cbn [fold_left]. apply IH. destruct m; cbn [code_mix mix].
  - apply (proj1 (rel_mix_key C OK _ _ ikm H)).
  - apply rel_mix_hash; [exact OK|exact H].
  - apply mkah_rel. exact H.
Qed.

Lemma mixing_exact : forall name ms,
  let s := code_mixed C name ms in let y := mixed C name ms in
  ss_ck s = sy_ck y /\ ss_h s = sy_h y /\ cs_n (ss_cs s) = sy_n y /\
  cs_k (ss_cs s) = match sy_k y with Some k => k | None => zeros32 end /\
  split C s = (mkCS (fst (Split C y)) 0, mkCS (snd (Split C y)) 0).
Proof.
  intros name ms. cbv zeta. pose proof (mixed_rel ms _ _ (init_any name)) as R.
  destruct (rel_split C OK _ _ R) as [S1 S2]. destruct R as [A B D E F].
  do 3 (split; [assumption|]). split; [|rewrite (surjective_pairing (split C _)); f_equal; assumption]. unfold code_mixed, mixed. destruct (sy_k _); [apply F|exact F].
Qed.
End P.
