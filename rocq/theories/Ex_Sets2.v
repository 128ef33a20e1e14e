(** Generated by tools/gen_ex.py from tools/examples.txt. *)
From Verif Require Import T_Sets2 Ex_Base.
Open Scope nat_scope.

Lemma tex_C24_members_only_by_fill :
  exists b ord w p w' out s sb,
    fair ord /\
    reach b w /\
    allowed b w p /\
    step ord w p = Some (w', out) /\
    set_at w s sb /\
    p <> ODelSet s /\
    ~ fills s p /\
    o_recs (ob_at w' 10) <> o_recs sb.
Proof. exists (true), (id_order), (W), (OEraseRef 0 0), (nw (W) (OEraseRef 0 0)), (out_of (W) (OEraseRef 0 0)), (10), (ob_at (W) 10); ex; cbn; intuition discriminate. Qed.

Lemma tex_C24_removed_stays_out :
  exists b w w' s sb r,
    reach b w /\
    set_at w s sb /\
    r ∉ o_recs sb /\
    later_if b (fun p => p <> ODelSet s /\ ~ fills s p) w w' /\
    o_recs (ob_at (state false sc) 10) <> o_recs sb /\ stored w 0 "age" <> stored w' 0 "age".
Proof. exists (false), (nw (state false sc) (OEraseRef 10 0)), (nw (nw (state false sc) (OEraseRef 10 0)) (OSetData 0 "age" (VInt I32 1))), (10), (ob_at (nw (state false sc) (OEraseRef 10 0)) 10), (0); ex; apply nw_later_if; [apply later_if_now|cbn; intuition discriminate|vmr]. Qed.

Lemma tex_C24_removeref_exact :
  exists b ord w s sb p f rf w' out,
    fair ord /\
    reach b w /\
    set_at w s sb /\
    o_parent sb = Some p /\
    w_refs w !! f = Some rf /\
    step ord w (OEraseRef s f) = Some (w', out) /\
    out = OBool true.
Proof. exists (true), (id_order), (W), (10), (ob_at (W) (10)), (0), (0), (rf_at (W) (0)), (nw (W) (OEraseRef (10) (0))), (out_of (W) (OEraseRef (10) (0))); ex. Qed.

Lemma tex_C24_removerecord_exact :
  exists b ord w s sb p (k : string) v w' out,
    fair ord /\
    reach b w /\
    set_at w s sb /\
    o_parent sb = Some p /\
    step ord w (OEraseRecord s k v) = Some (w', out) /\
    out = ORes (okres Success "age" (Some (TInt I32)) (Some (TInt I32))) /\ o_recs (ob_at w' s) <> o_recs sb.
Proof. exists (true), (id_order), (W), (10), (ob_at (W) (10)), (0), ("age"), (VInt I32 30), (nw (W) (OEraseRecord (10) ("age") (VInt I32 30))), (out_of (W) (OEraseRecord (10) ("age") (VInt I32 30))); ex. Qed.

Lemma tex_C24_removerecords_exact :
  exists b ord w s sb p (k : string) v amt w' out,
    fair ord /\
    reach b w /\
    set_at w s sb /\
    o_parent sb = Some p /\
    step ord w (OEraseRecords s k v amt) = Some (w', out) /\
    o_recs (ob_at w' s) <> o_recs sb /\ filed sb k v 0 /\ filed sb k v 1.
Proof. exists (true), (id_order), (W), (10), (ob_at (W) (10)), (0), ("age"), (VInt I32 30), (Some 1), (nw (W) (OEraseRecords (10) ("age") (VInt I32 30) (Some 1))), (out_of (W) (OEraseRecords (10) ("age") (VInt I32 30) (Some 1))); ex. Qed.

Lemma tex_C24_clear_exact :
  exists b ord w s sb w' out,
    fair ord /\
    reach b w /\
    set_at w s sb /\
    step ord w (OSetClear s) = Some (w', out) /\
    size (o_recs sb) = 3.
Proof. exists (true), (id_order), (W), (10), (ob_at (W) (10)), (nw (W) (OSetClear (10))), (out_of (W) (OSetClear (10))); ex. Qed.

Lemma tex_C24_reset_exact :
  exists b ord w s sb w' out,
    fair ord /\
    reach b w /\
    set_at w s sb /\
    step ord w (OSetReset s) = Some (w', out) /\
    size (o_recs sb) = 3.
Proof. exists (true), (id_order), (W), (10), (ob_at (W) (10)), (nw (W) (OSetReset (10))), (out_of (W) (OSetReset (10))); ex. Qed.

Lemma tex_C45_stays_bound :
  exists b ord w p w' out s sb,
    fair ord /\
    reach b w /\
    allowed b w p /\
    step ord w p = Some (w', out) /\
    set_at w s sb /\
    p <> ODelSet s /\
    ~ rebinds s p /\
    o_parent (ob_at w' s) <> o_parent sb.
Proof. exists (true), (id_order), (W), (ODropVault 0), (nw (W) (ODropVault 0)), (out_of (W) (ODropVault 0)), (10), (ob_at (W) (10)); ex; cbn; intuition discriminate. Qed.

Lemma tex_C45_stays_bound__other :
  exists b ord w p w' out s sb,
    fair ord /\
    reach b w /\
    allowed b w p /\
    step ord w p = Some (w', out) /\
    set_at w s sb /\
    p <> ODelSet s /\
    ~ rebinds s p /\
    size (o_recs sb) = 3.
Proof. exists (true), (id_order), (W), (ODropVault 1), (nw (W) (ODropVault 1)), (out_of (W) (ODropVault 1)), (10), (ob_at (W) (10)); ex; cbn; intuition discriminate. Qed.
