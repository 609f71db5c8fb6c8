(** * Spec_Errors: which error values an error class of the model stands for *)
From Coq Require Import String.
From Verif Require Import GoBase Errors.

(* an error that is none of the package's sentinels and wraps none *)
Definition foreign (e : err) : Prop := e <> rootError /\ forall s, errors_is e (sentinel_err s) = false.
Inductive has_class : kerr -> err -> Prop :=
| hc_sentinel s : has_class (K s) (sentinel_err s)
| hc_eof e : foreign e -> has_class KEOF e
| hc_unexpected e : foreign e -> has_class KUnexpectedEOF e
| hc_other z e : foreign e -> has_class (KExt z) e
(* err.WithMessage(m) *)
| hc_message k e m : has_class k e -> has_class k (with_message e m)
(* fmt.Errorf("... %w", err) *)
| hc_errorf k e id m : has_class k e -> has_class (KMsg k) (EForeign id m (Some e))
(* s.WithMessage(..).Wrap(err) *)
| hc_wrap s k r e id w : has_class (K s) r -> is_driver_error r = true -> has_class k e -> wrap id r (Some e) = Ret w -> has_class (KWrap s k) w.
