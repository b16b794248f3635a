(** * GroupOrder: the order of the base point of edwards25519 and the large factor of the order of its twist are primes. *)
From Coq Require Import ZArith Znumtheory Zpow_facts Bool Lia.
From Verif Require Import NumberTheory.
Open Scope Z_scope.

Lemma pocklington_check_one : forall n a q m, prime q ->
  (1 <? n) && (0 <=? m) && (n - 1 =? q * m) && (n <? q * q) && (Zpow_mod a (n - 1) n =? 1) &&
  (Z.gcd (Zpow_mod a m n - 1) n =? 1) = true -> prime n.
Proof.
  intros n a q m P H. rewrite !andb_true_iff in H. destruct H as [[[[[H1 H2] H3] H4] H5] H6].
  apply Z.ltb_lt in H1. apply Z.leb_le in H2. apply Z.eqb_eq in H3. apply Z.ltb_lt in H4. apply Z.eqb_eq in H5. apply Z.eqb_eq in H6.
  rewrite Zpow_mod_correct in H5, H6 by lia.
  exact (pocklington_one n a q m H1 P H2 H3 H4 H5 H6).
Qed.

Lemma prime_2551 : prime 2551. Proof. apply (trial_prime 2551 1000); vm_compute; reflexivity. Qed.
Lemma prime_531581 : prime 531581. Proof. apply (trial_prime 531581 1000); vm_compute; reflexivity. Qed.
Lemma prime_1224481 : prime 1224481.
Proof.
  apply (pocklington_check_one 1224481 2
    2551 480 prime_2551).
  vm_compute. reflexivity.
Qed.
Lemma prime_1257559732178653 : prime 1257559732178653.
Proof.
  apply (pocklington_check 1257559732178653 2
    1224481 1027014492 531581 2365697292 prime_1224481 prime_531581).
  vm_compute. reflexivity.
Qed.
Lemma prime_4434155615661930479 : prime 4434155615661930479.
Proof.
  apply (pocklington_check_one 4434155615661930479 2
    1257559732178653 3526 prime_1257559732178653).
  vm_compute. reflexivity.
Qed.
Lemma prime_172054593956031949258510691 : prime 172054593956031949258510691.
Proof.
  apply (pocklington_check_one 172054593956031949258510691 2
    4434155615661930479 38802110 prime_4434155615661930479).
  vm_compute. reflexivity.
Qed.
Lemma prime_19757330305831588566944191468367130476339 : prime 19757330305831588566944191468367130476339.
Proof.
  apply (pocklington_check_one 19757330305831588566944191468367130476339 2
    172054593956031949258510691 114831751082918 prime_172054593956031949258510691).
  vm_compute. reflexivity.
Qed.
Lemma prime_276602624281642239937218680557139826668747 : prime 276602624281642239937218680557139826668747.
Proof.
  apply (pocklington_check_one 276602624281642239937218680557139826668747 2
    19757330305831588566944191468367130476339 14 prime_19757330305831588566944191468367130476339).
  vm_compute. reflexivity.
Qed.
Definition L : Z := 2 ^ 252 + 27742317777372353535851937790883648493.
Lemma prime_L : prime L.
Proof.
  apply (pocklington_check_one 7237005577332262213973186563042994240857116359379907606001950938285454250989 2
    276602624281642239937218680557139826668747 26163907866482859529727157400808004 prime_276602624281642239937218680557139826668747).
  vm_compute. reflexivity.
Qed.

(** The prime of the twist. *)
Lemma prime_2281 : prime 2281. Proof. apply (trial_prime 2281 1000); vm_compute; reflexivity. Qed.
Lemma prime_3911 : prime 3911. Proof. apply (trial_prime 3911 1000); vm_compute; reflexivity. Qed.
Lemma prime_8053 : prime 8053. Proof. apply (trial_prime 8053 1000); vm_compute; reflexivity. Qed.
Lemma prime_28859 : prime 28859. Proof. apply (trial_prime 28859 1000); vm_compute; reflexivity. Qed.
Lemma prime_1013266244677 : prime 1013266244677.
Proof.
  apply (pocklington_check 1013266244677 2
    8053 125824692 3911 259081116 prime_8053 prime_3911).
  vm_compute. reflexivity.
Qed.
Lemma prime_5171003929967 : prime 5171003929967.
Proof.
  apply (pocklington_check 5171003929967 2
    28859 179181674 2281 2266989886 prime_28859 prime_2281).
  vm_compute. reflexivity.
Qed.
Lemma prime_22561162540501040539 : prime 22561162540501040539.
Proof.
  apply (pocklington_check_one 22561162540501040539 2
    5171003929967 4363014 prime_5171003929967).
  vm_compute. reflexivity.
Qed.
Lemma prime_203852586375664218368381551393371968928013 : prime 203852586375664218368381551393371968928013.
Proof.
  apply (pocklington_check 203852586375664218368381551393371968928013 2
    22561162540501040539 9035553288077017678308 1013266244677 201183635048107748313396499356 prime_22561162540501040539 prime_1013266244677).
  vm_compute. reflexivity.
Qed.
Lemma prime_104719073621178708975837602950775180438320278101 : prime 104719073621178708975837602950775180438320278101.
Proof.
  apply (pocklington_check_one 104719073621178708975837602950775180438320278101 2
    203852586375664218368381551393371968928013 513700 prime_203852586375664218368381551393371968928013).
  vm_compute. reflexivity.
Qed.
Lemma prime_27413359092552162435694767700453926735143482401279781 : prime 27413359092552162435694767700453926735143482401279781.
Proof.
  apply (pocklington_check_one 27413359092552162435694767700453926735143482401279781 2
    104719073621178708975837602950775180438320278101 261780 prime_104719073621178708975837602950775180438320278101).
  vm_compute. reflexivity.
Qed.
Definition L2 : Z := 2 ^ 253 - 55484635554744707071703875581767296995.
Lemma prime_L2 : prime L2.
Proof.
  apply (pocklington_check_one 14474011154664524427946373126085988481603263447650325797860494125407373907997 2
    27413359092552162435694767700453926735143482401279781 527991155910437724961516 prime_27413359092552162435694767700453926735143482401279781).
  vm_compute. reflexivity.
Qed.
