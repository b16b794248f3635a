(** * PropSum: C136, the number of bytes that serialize reports. *)
From Verif Require Import Base Codec Types Messages Frame Catalog Nest Word SpecWord SpecWire SpecTypes SpecNest Sum SpecSum SumProofs
  NestProofs.
Open Scope N_scope.
Open Scope list_scope.

(** C136.  Every type of the crate, any writer whatever it reports, both widths and profiles: the bytes are offered in
    pieces; a type other than the frame reports its length, and a frame the 6 bytes of its header and what the writer
    reported for the payload, if a usize can hold the sum. *)
Theorem C136_types : forall w pf t v, ok t v -> exists cs, wire (concat cs) = lay t v /\
  forall W (wr : writer W) st, usize_counts w wr ->
    run wr (ser_of_x w pf t v) st =
      match offer wr cs st with
      | (st', None) => (st', Err IOError)
      | (st', Some counts) => (st', match t with T_frame => shown w pf (6 + last counts 0) | _ => Ok (len (lay t v)) end)
      end.
Proof. exact types_reported. Qed.
Print Assumptions C136_types.

(** Declared messages, nested to any depth: the sum over the innermost fields, cut to a usize; with overflow checks a
    panic instead.  An error of the writer is the result, unless a sum of earlier fields panics. *)
Theorem C136_declared : forall w pf A (s : shape A) v W (wr : writer W) st st' r, usize_counts w wr ->
  run wr (shape_ser s v) st = (st', r) ->
  match r with
  | Ok n => snd (run wr (shape_ser_x w pf s v) st) = shown w pf n /\
            (shown w pf n <> Panic -> fst (run wr (shape_ser_x w pf s v) st) = st')
  | Err e => run wr (shape_ser_x w pf s v) st = (st', Err e) \/ pf = Debug /\ snd (run wr (shape_ser_x w pf s v) st) = Panic
  | Panic => False
  end.
Proof. exact reported. Qed.
Print Assumptions C136_declared.

(** A writer that keeps the contract of io::Write: no sum overflows, so Nest.v (and with it Macro.v, C124) is exact. *)
Theorem C136_contract : forall w pf A (s : shape A) v, shape_ok s v -> len (shape_lay s v) < usize_end w ->
  forall W (wr : writer W), honest wr -> usize_counts w wr ->
  forall st, run wr (shape_ser_x w pf s v) st = run wr (shape_ser s v) st.
Proof. exact contract. Qed.
Print Assumptions C136_contract.

(** A frame of two bytes to a writer that reports usize::MAX each time, and to one that takes one byte a call. *)
Definition boast (w : width) : writer unit := fun st _ => (st, Some (usize_end w - 1)).
Definition slow : writer bytes := fun st buf => (st ++ firstn 1 buf, Some (len (firstn 1 buf))).
Definition small_frame : message := mkMessage MT_SetupConnectionSuccess [x02; x00].
Example C136_ex : ok T_frame small_frame /\ shape_ok (S_lib T_frame) small_frame /\
  (forall w, usize_counts w (boast w)) /\ honest slow /\ usize_counts W32 slow /\
  (forall w, run (boast w) (ser_of_x w Debug T_frame small_frame) tt = (tt, Panic) /\
             run (boast w) (ser_of_x w Release T_frame small_frame) tt = (tt, Ok 5) /\
             run (boast w) (ser_of_x w Debug T_u32 7) tt = (tt, Ok 4)) /\
  run slow (shape_ser_x W32 Debug (S_lib T_frame) small_frame) [] = ([x00; x01; x02; x02], Ok 7).
Proof.
  assert (L : len (m_payload small_frame) < 16777216) by reflexivity.
  pose proof one_byte as F.
  split; [exact L|]. split; [exact L|]. split.
  { intros w st buf st' n E. inversion E; subst. destruct w; reflexivity. }
  split.
  { intros st buf st' n E. inversion E; subst. apply F. }
  split.
  { intros st buf st' n E. inversion E; subst. eapply N.le_lt_trans; [apply F|]. reflexivity. }
  split; [|reflexivity].
  intros [|]; repeat split; reflexivity.
Qed.
