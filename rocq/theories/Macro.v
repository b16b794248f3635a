(** * Macro: the [impl_message!] macro for an arbitrary list of field types.  Definitions only.
    stratumv2/src/macro_message/message.rs:11-54

    Messages.v holds the expansions of the macro that the crate contains; here the macro itself is a
    function of the declared field types and of the constructor [new] that the declaring module writes. *)
From Verif Require Import Base Codec Types Messages Frame Catalog.

(** message.rs:21-28.  The struct: one value per declared field, in the order of the declaration.  Every wire
    type of the crate may be a field type, including messages declared before ([$field_type:ident]). *)
Fixpoint fields (ts : list ty) : Type :=
  match ts with
  | [] => unit
  | t :: ts' => (val t * fields ts')%type
  end.

(** message.rs:32-34.  The array of counts: the fields are written one after the other, the first error ends it. *)
Fixpoint ser_counts (ts : list ty) : fields ts -> wprog (list N) :=
  match ts with
  | [] => fun _ => wok []
  | t :: ts' => fun v =>
      (n <- ser_of t (fst v) ;;
       ns <- ser_counts ts' (snd v) ;;
       wok (n :: ns))%ser
  end.

(** message.rs:30-38.  [.iter().sum()].  Simplified: the sum is not cut to usize; it overflows only for a writer
    that reports 2^64 bytes or more, against the contract of io::Write (Sum.v has it exactly, C136). *)
Definition im_ser (ts : list ty) (v : fields ts) : wprog N :=
  (ns <- ser_counts ts v ;; wok (fold_left N.add ns 0))%ser.

(** message.rs:43.  The arguments of [new], evaluated from left to right; the first error ends it. *)
Fixpoint de_fields (ts : list ty) : De (fields ts) :=
  match ts with
  | [] => de_ret tt
  | t :: ts' =>
      (x <- de_of t ;;
       xs <- de_fields ts' ;;
       de_ret (x, xs))%de
  end.

(** message.rs:40-46. *)
Definition im_de (ts : list ty) {M : Type} (new : fields ts -> Result M) : De M :=
  (v <- de_fields ts ;; de_lift (new v))%de.

(** message.rs:48-52.  [M] is the struct; [open] lists its fields. *)
Definition im_frameable (ts : list ty) {M : Type} (open : M -> fields ts) (new : fields ts -> Result M)
    (T : message_type) : frameable M :=
  mkFrameable T (fun m => im_ser ts (open m)) (im_de ts new).
