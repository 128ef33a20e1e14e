(** Generated by tools/gen_ex.py from tools/examples.txt. *)
From Verif Require Import T_Isolated Ex_Base.
Open Scope nat_scope.

Lemma tex_C67_sets_isolated :
  exists b ord w p w' out s sb,
    fair ord /\
    reach b w /\
    allowed b w p /\
    step ord w p = Some (w', out) /\
    set_at w s sb /\
    (forall v, o_parent sb = Some v -> ~ concerns w p v) /\
    ~ names_set s p /\
    size (o_recs sb) = 3 /\ o_parent sb = Some 0.
Proof. exists (true), (id_order), (W), (ODropVault 1), (nw (W) (ODropVault 1)), (out_of (W) (ODropVault 1)), (10), (ob_at (W) 10); ex; first [let Hp := fresh in intros v0 Hp; vm_compute in Hp; injection Hp as <-; nconc|cbn; intuition discriminate]. Qed.

Lemma tex_C67_sets_isolated__request :
  exists b ord w p w' out s sb,
    fair ord /\
    reach b w /\
    allowed b w p /\
    step ord w p = Some (w', out) /\
    set_at w s sb /\
    (forall v, o_parent sb = Some v -> ~ concerns w p v) /\
    ~ names_set s p /\
    size (o_recs sb) = 3 /\ size (o_recs (ob_at w 11)) = 3 /\ size (o_recs (ob_at w' 11)) = 2.
Proof. exists (true), (id_order), (W), (ORequest 0 REqual "age" (VInt I32 30) (VInt I32 30) false false None None 11), (nw (W) (ORequest 0 REqual "age" (VInt I32 30) (VInt I32 30) false false None None 11)), (out_of (W) (ORequest 0 REqual "age" (VInt I32 30) (VInt I32 30) false false None None 11)), (10), (ob_at (W) 10); ex; first [let Hp := fresh in intros v0 Hp; vm_compute in Hp; injection Hp as <-; nconc|cbn; intuition discriminate]. Qed.

Lemma tex_C67_sets_stay_as_they_are :
  exists b w w' s sb,
    reach b w /\
    set_at w s sb /\
    (later_while b (fun w1 p => (forall v, o_parent sb = Some v -> ~ concerns w1 p v) /\ ~ names_set s p) w w') /\
    size (o_recs sb) = 3.
Proof. exists (true), (W), (nw W (ODropVault 1)), (10), (ob_at (W) 10); ex; apply nw_later_while; [apply later_while_now|split; [let Hp := fresh in intros v0 Hp; vm_compute in Hp; injection Hp as <-; nconc|cbn; intuition discriminate]|vmr]. Qed.

Lemma tex_C67_vaults_isolated :
  exists b ord w p w' out v vb,
    fair ord /\
    reach b w /\
    allowed b w p /\
    step ord w p = Some (w', out) /\
    vault_at w v vb /\
    ~ concerns w p v /\
    size (o_recs vb) = 4.
Proof. exists (true), (id_order), (W), (ODropVault 1), (nw (W) (ODropVault 1)), (out_of (W) (ODropVault 1)), (0), (ob_at (W) 0); ex; nconc. Qed.
