(** The invariant of worlds reached by client programs.

    [Inv false] holds along a wide class of programs as long as no undefined behaviour occurred (class [ok_wide]);
    [Inv true] additionally describes record sets exactly and holds along a smaller class (class [ok_safe]),
    for which the absence of undefined behaviour is proved as well. *)
From Verif Require Export WorldProofs2.
Open Scope nat_scope.

(** Valid records: contents and registered sets. *)
Notation lrec := (gmap string value * gset nat)%type.
Definition live_rec (rc : recd) : option lrec := if r_valid rc then Some (r_data rc, r_deps rc) else None.
Definition live_of (m : gmap nat recd) : gmap nat lrec := omap live_rec m.
Definition live (w : world) : gmap nat lrec := live_of (w_recs w).
Definition val_of (L : gmap nat lrec) (k : string) (r : nat) : option value := l ← L !! r; l.1 !! k.

Global Arguments live_of : simpl never.
Global Arguments live_rec : simpl never.
Lemma lookup_live_of m r : live_of m !! r = rc ← m !! r; live_rec rc.
Proof. unfold live_of. by rewrite lookup_omap. Qed.

(** Contents [data] fit the keys: same key set, right types. *)
Definition typed (keys : gmap string (vtype * value)) (data : gmap string value) : Prop :=
  forall k, match data !! k, keys !! k with
            | Some v, Some td => vty v = td.1
            | None, None => True
            | _, _ => False
            end.

Definition strlt (a b : string) : Prop := strltb a b = true.

(** The index of key [k] of a vault or (strictly tracked) set. *)
Definition idx_ok (L : gmap nat lrec) (recs : gset nat) (uniq : list string) (k : string) (ix : idx) : Prop :=
  good recs (val_of L k) ix /\
  (ix_multi ix = false -> k ∈ uniq) /\
  (k ∈ uniq -> complete recs (val_of L k) (ix_hash ix) /\ complete recs (val_of L k) (ix_tree ix)).

Record keys_ok (ob : obj) : Prop := KeysOk {
  k_tmpl : typed (o_keys ob) (o_tmpl ob);
  k_type : forall k t d, o_keys ob !! k = Some (t, d) -> vty d = t;
  k_nodup : NoDup (o_order ob);
  k_order : forall k, k ∈ o_order ob <-> is_Some (o_keys ob !! k);
  k_uniq : forall k, k ∈ o_uniq ob -> is_Some (o_keys ob !! k);
  k_usort : StronglySorted strlt (o_uniq ob)
}.

Record vault_ok (L : gmap nat lrec) (ob : obj) : Prop := VaultOk {
  v_isset : o_isset ob = false;
  v_parent : o_parent ob = None;
  v_keys : keys_ok ob;
  v_recs : forall r, r ∈ o_recs ob -> exists l, L !! r = Some l /\ typed (o_keys ob) l.1;
  v_idx : forall k td, o_keys ob !! k = Some td ->
     exists ix, o_idx ob !! k = Some ix /\ idx_ok L (o_recs ob) (o_uniq ob) k ix /\
                (k ∈ o_uniq ob -> ix_multi ix = false)
}.

(** A set filled from vault [pb] that is followed exactly. *)
Record strict (L : gmap nat lrec) (s : nat) (ob pb : obj) : Prop := Strict {
  st_keys : (fst <$> o_keys ob) = (fst <$> o_keys pb);
  st_type : forall k t d, o_keys ob !! k = Some (t, d) -> vty d = t;
  st_tmpl : typed (o_keys ob) (o_tmpl ob);
  st_order : o_order ob = o_order pb;
  st_uniq : o_uniq ob = o_uniq pb;
  st_recs : o_recs ob ⊆ o_recs pb;
  st_deps : forall r l, r ∈ o_recs ob -> L !! r = Some l -> s ∈ l.2;
  st_idx : forall k td, o_keys ob !! k = Some td ->
     exists ix, o_idx ob !! k = Some ix /\ idx_ok L (o_recs ob) (o_uniq ob) k ix
}.

Record set_par (b : bool) (L : gmap nat lrec) (s : nat) (ob pb : obj) : Prop := SetPar {
  sp_idx : forall k ix e, o_idx ob !! k = Some ix -> e ∈ ix_hash ix \/ e ∈ ix_tree ix -> is_Some (L !! e.2) -> e.2 ∈ o_recs pb;
  sp_recs : forall r, r ∈ o_recs ob -> is_Some (L !! r) -> r ∈ o_recs pb;
  sp_strict : b = true -> strict L s ob pb
}.

Record set_ok (b : bool) (objs : gmap nat obj) (L : gmap nat lrec) (n : nat) (s : nat) (ob : obj) : Prop := SetOk {
  so_bidx : forall k ix e, o_idx ob !! k = Some ix -> e ∈ ix_hash ix \/ e ∈ ix_tree ix -> e.2 < n;
  so_brecs : forall r, r ∈ o_recs ob -> r < n;
  so_isset : o_isset ob = true;
  so_sets : o_sets ob = ∅;
  so_none : o_parent ob = None ->
    o_tmpl ob = ∅ /\ o_idx ob = ∅ /\ o_keys ob = ∅ /\ o_order ob = [] /\ o_uniq ob = [] /\ o_recs ob = ∅;
  so_some : forall p, o_parent ob = Some p ->
    exists pb, objs !! p = Some pb /\ o_static_set pb = false /\ s ∈ o_sets pb /\ set_par b L s ob pb
}.

Record VInv (b : bool) (objs : gmap nat obj) (L : gmap nat lrec) (n : nat) : Prop := VI {
  vi_vault : forall o ob, objs !! o = Some ob -> o_static_set ob = false -> vault_ok L ob;
  vi_sets : forall o ob s, objs !! o = Some ob -> o_static_set ob = false -> s ∈ o_sets ob ->
     exists sb, objs !! s = Some sb /\ o_static_set sb = true /\ o_parent sb = Some o;
  vi_set : forall s sb, objs !! s = Some sb -> o_static_set sb = true -> set_ok b objs L n s sb;
  vi_disj : forall o ob o' ob' r, objs !! o = Some ob -> o_static_set ob = false ->
     objs !! o' = Some ob' -> o_static_set ob' = false -> r ∈ o_recs ob -> r ∈ o_recs ob' -> o = o';
  vi_owned : forall r, is_Some (L !! r) -> exists o ob, objs !! o = Some ob /\ o_static_set ob = false /\ r ∈ o_recs ob;
  vi_deps : forall r l s, L !! r = Some l -> s ∈ l.2 ->
     (forall sb, objs !! s = Some sb -> o_static_set sb = true /\
        forall p, o_parent sb = Some p -> exists pb, objs !! p = Some pb /\ o_static_set pb = false /\ r ∈ o_recs pb) /\
     (b = true -> exists sb, objs !! s = Some sb /\ r ∈ o_recs sb)
}.

(** References: number of references to a record, plus [xs] handles that are being moved around. *)
Definition count (refs : gmap nat vref) (r : nat) : nat :=
  size (filter (fun e : nat * vref => f_rec e.2 = Some r) refs).
Fixpoint occ (r : nat) (xs : list nat) : nat :=
  match xs with [] => 0 | x :: xs' => (if decide (x = r) then 1 else 0) + occ r xs' end.

Record RInv (m : gmap nat recd) (refs : gmap nat vref) (xs : list nat) : Prop := RI {
  ri_refs : forall f rf r, refs !! f = Some rf -> f_rec rf = Some r -> is_Some (m !! r);
  ri_xs : forall r, r ∈ xs -> is_Some (m !! r);
  ri_cnt : forall r rc, m !! r = Some rc -> r_refs rc = count refs r + occ r xs;
  ri_inv : forall r rc, m !! r = Some rc -> r_valid rc = false -> r_refs rc <> 0
}.

(** The vault a reference is bound to owns its record (if both still exist). *)
Definition vlt_ok (objs : gmap nat obj) (L : gmap nat lrec) (refs : gmap nat vref) : Prop :=
  forall f rf r, refs !! f = Some rf -> f_rec rf = Some r ->
    exists o, f_vlt rf = Some o /\
      forall ob, objs !! o = Some ob -> o_static_set ob = false -> is_Some (L !! r) -> r ∈ o_recs ob.

Record Inv (b : bool) (w : world) : Prop := INV {
  inv_heap : forall r, is_Some (w_recs w !! r) -> r < w_next w;
  inv_ref : RInv (w_recs w) (w_refs w) [];
  inv_obj : VInv b (w_objs w) (live w) (w_next w);
  inv_vlt : vlt_ok (w_objs w) (live w) (w_refs w)
}.
