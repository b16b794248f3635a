(** * Nest: messages declared with [impl_message!] whose fields are again messages so declared, to any depth.
    Definitions only.  stratumv2/src/macro_message/message.rs:11-54

    The macro asks nothing of a field type but the two traits, which it implements for the struct itself; so a declared
    message may be a field type of the next declaration. *)
From Verif Require Import Base Codec Types Messages Frame Catalog.

(** message.rs:21-28.  [S_lib]: a wire type of the crate.  [S_msg]: a struct [M] declared with the fields [fs]; [open]
    lists the fields of a value and [new] is the constructor that the declaring module writes (message.rs:43). *)
Inductive shape : Type -> Type :=
| S_lib : forall t : ty, shape (val t)
| S_msg : forall F M : Type, shapes F -> (M -> F) -> (F -> Result M) -> shape M
with shapes : Type -> Type :=
| S_nil : shapes unit
| S_cons : forall A F : Type, shape A -> shapes F -> shapes (A * F)%type.
Arguments S_msg {F M} _ _ _.
Arguments S_cons {A F} _ _.

(** message.rs:30-38: the counts of the fields, first to last, and their sum.  Simplified as in Macro.v: the sum is not
    cut to usize (Sum.v, C136). *)
Fixpoint shape_ser {A} (s : shape A) : A -> wprog N :=
  match s with
  | S_lib t => ser_of t
  | S_msg fs open _ => fun m => (ns <- shapes_ser fs (open m) ;; wok (fold_left N.add ns 0))%ser
  end
with shapes_ser {F} (fs : shapes F) : F -> wprog (list N) :=
  match fs with
  | S_nil => fun _ => wok []
  | S_cons s fs' => fun v => (n <- shape_ser s (fst v) ;; ns <- shapes_ser fs' (snd v) ;; wok (n :: ns))%ser
  end.

(** message.rs:40-46: the arguments of [new], evaluated from left to right. *)
Fixpoint shape_de {A} (s : shape A) : De A :=
  match s with
  | S_lib t => de_of t
  | S_msg fs _ new => (v <- shapes_de fs ;; de_lift (new v))%de
  end
with shapes_de {F} (fs : shapes F) : De F :=
  match fs with
  | S_nil => de_ret tt
  | S_cons s fs' => (x <- shape_de s ;; xs <- shapes_de fs' ;; de_ret (x, xs))%de
  end.

(** message.rs:48-52. *)
Definition nest_frameable {A} (s : shape A) (T : message_type) : frameable A := mkFrameable T (shape_ser s) (shape_de s).
