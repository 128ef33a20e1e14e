(** Numbers and tactics for the examples of T_Float.v. *)
From Coq Require Import Ascii.
From Verif Require Import FloatSpec FloatReal2.
From Coq Require Import SpecFloat Reals Lra.
Open Scope Z_scope.
(** The float and the double nearest to 3.14, the double -12.5 and the float -20. *)
Definition pi32 : spec_float := S754_finite false 13170115 (-22).
Definition pi64 : spec_float := S754_finite false 7070651414971679 (-51).
Definition neg12 : spec_float := S754_finite true 7036874417766400 (-49).
Definition neg20 : spec_float := S754_finite true 10485760 (-19).
Definition read (k : fkind) (s : text) : spec_float := match float_of_text k s with FpOk x => x | _ => S754_nan end.
Lemma pow2 n : powerRZ 2 (Zneg n) = (/ IZR (2 ^ Zpos n))%R.
Proof. rewrite <- powerRZ_IZR by lia. apply (powerRZ_neg' 2 (Zpos n)). Qed.
Ltac flx := repeat match goal with
  | |- _ /\ _ => split
  | |- decimal ?s _ _ ?fs => let t := (match fs with [] => constr:(@nil ascii) | _ => constr:("."%char :: map digit_char fs) end) in exists t; split; [vm_compute; reflexivity|]; split; [first [left; split; reflexivity | right; reflexivity]|]; split; [repeat (apply Forall_cons; split; [lia|]); constructor|]; split; [repeat (apply Forall_cons; split; [lia|]); constructor|left; discriminate]
  | |- is_float _ _ => vm_compute; reflexivity
  | |- (_ <= _)%nat => cbn; lia
  | |- (_ <= _)%Z => vm_compute; discriminate
  | |- (_ < _)%R => unfold pi32, pi64, neg12, neg20; cbn [fvalue]; first [rewrite (pow2 22) | rewrite (pow2 19) | rewrite (pow2 51) | rewrite (pow2 49)]; match goal with |- context [2 ^ ?p] => let v := eval vm_compute in (2 ^ p) in change (2 ^ p) with v end; first [rewrite Rabs_right by lra | rewrite Rabs_left by lra]; lra
  | |- fvalue neg20 = _ => unfold neg20; cbn [fvalue]; rewrite (pow2 19); change (2 ^ 19) with 524288; lra
  | |- _ = _ => vm_compute; reflexivity
  | |- _ <> _ => vm_compute; discriminate
  end.
