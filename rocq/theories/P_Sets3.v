(** Generated by tools/gen_p.py from T_Sets3.v: the property theorems, nothing else. *)
From Verif Require Import T_Sets3 Ex_Base Ex_Sets3.
Open Scope nat_scope.

(** C09: the set a request filled answers every query completely. *)
Theorem C09_request_set_indexed :
  forall ord w o ob pv rt k bv ev ib ie amt p s w' res, fair ord -> reach true w -> source_at true w o ob pv -> o <> s -> vty ev = vty bv ->
    step ord w (ORequest o rt k bv ev ib ie amt p s) = Some (w', ORes res) ->
    exists sb', set_at w' s sb' /\ o_parent sb' = Some pv /\ indexed w' sb'.
Proof. exact t_C09_request_set_indexed. Qed.
Print Assumptions C09_request_set_indexed.
Example ex_C09_request_set_indexed :
  exists ord w o ob pv rt (k : string) bv ev ib ie amt p s w' res,
    fair ord /\
    reach true w /\
    source_at true w o ob pv /\
    o <> s /\
    vty ev = vty bv /\
    step ord w (ORequest o rt k bv ev ib ie amt p s) = Some (w', ORes res) /\
    size (o_recs (ob_at w' s)) = 3.
Proof. exact tex_C09_request_set_indexed. Qed.

(** C10: the set a complex request filled answers every query completely. *)
Theorem C10_complex_set_indexed :
  forall ord w o ob pv q s w' res, fair ord -> reach true w -> source_at true w o ob pv -> o <> s -> req_ok q ->
    step ord w (OComplex o q s) = Some (w', ORes res) ->
    exists sb', set_at w' s sb' /\ o_parent sb' = Some pv /\ indexed w' sb'.
Proof. exact t_C10_complex_set_indexed. Qed.
Print Assumptions C10_complex_set_indexed.
Example ex_C10_complex_set_indexed :
  exists ord w o ob pv q s w' res,
    fair ord /\
    reach true w /\
    source_at true w o ob pv /\
    o <> s /\
    req_ok q /\
    step ord w (OComplex o q s) = Some (w', ORes res) /\
    size (o_recs (ob_at w' s)) = 2.
Proof. exact tex_C10_complex_set_indexed. Qed.

(** C25: a copied set belongs to the same vault, has the same keys and records, and answers every query completely; the original is untouched. *)
Theorem C25_copy_exact :
  forall b ord w dst src sb w' out, fair ord -> reach b w -> allowed b w (OCopySet dst src) -> set_at w src sb -> w_objs w !! dst = None ->
    step ord w (OCopySet dst src) = Some (w', out) ->
    only_set_changed dst w w' /\ set_at w' src sb /\ exists sb', set_at w' dst sb' /\ o_parent sb' = o_parent sb /\ o_recs sb' = o_recs sb /\
      get_keys sb' = get_keys sb /\ get_unique_keys sb' = get_unique_keys sb /\ (b = true -> equal_keys sb sb' /\ indexed w' sb').
Proof. exact t_C25_copy_exact. Qed.
Print Assumptions C25_copy_exact.
Example ex_C25_copy_exact :
  exists b ord w dst src sb w' out,
    fair ord /\
    reach b w /\
    allowed b w (OCopySet dst src) /\
    set_at w src sb /\
    w_objs w !! dst = None /\
    step ord w (OCopySet dst src) = Some (w', out) /\
    size (o_recs sb) = 3.
Proof. exact tex_C25_copy_exact. Qed.

(** C25: the same for assignment to an existing set; what it held before is gone. *)
Theorem C25_assign_exact :
  forall b ord w dst src sb db w' out, fair ord -> reach b w -> allowed b w (OAssignSet dst src) -> set_at w src sb -> set_at w dst db -> dst <> src ->
    step ord w (OAssignSet dst src) = Some (w', out) ->
    only_set_changed dst w w' /\ set_at w' src sb /\ exists sb', set_at w' dst sb' /\ o_parent sb' = o_parent sb /\ o_recs sb' = o_recs sb /\
      get_keys sb' = get_keys sb /\ get_unique_keys sb' = get_unique_keys sb /\ (b = true -> equal_keys sb sb' /\ indexed w' sb').
Proof. exact t_C25_assign_exact. Qed.
Print Assumptions C25_assign_exact.
Example ex_C25_assign_exact :
  exists b ord w dst src sb db w' out,
    fair ord /\
    reach b w /\
    allowed b w (OAssignSet dst src) /\
    set_at w src sb /\
    set_at w dst db /\
    dst <> src /\
    step ord w (OAssignSet dst src) = Some (w', out) /\
    size (o_recs sb) = 3 /\ o_recs db <> o_recs sb.
Proof. exact tex_C25_assign_exact. Qed.

(** C24: AddRecord puts exactly a valid record of the set's own vault into the set, and keeps its answers complete. *)
Theorem C24_add_exact :
  forall b ord w s sb f rf va w' out, fair ord -> reach b w -> set_at w s sb -> w_refs w !! f = Some rf -> ref_valid w rf = Some va ->
    step ord w (OSetAdd s f) = Some (w', out) ->
    match o_parent sb, f_rec rf with
    | None, _ => w' = w /\ out = ORes (bad ParentVaultNotValid "" None None)
    | Some _, None => w' = w /\ out = ORes (bad DataRecordNotValid "" None None)
    | Some p, Some r =>
        if va then
          if decide (f_vlt rf = Some p) then
            if decide (r ∈ o_recs sb) then w' = w /\ out = ORes (bad RecordAlredyInSet "" None None)
            else out = ORes (okres Success "" None None) /\ only_set_changed s w w' /\
              exists sb', set_at w' s sb' /\ o_parent sb' = Some p /\ same_schema sb sb' /\ o_recs sb' = {[r]} ∪ o_recs sb /\ (b = true -> indexed w sb -> indexed w' sb')
          else w' = w /\ out = ORes (bad ParentVaultNotMatch "" None None)
        else w' = w /\ out = ORes (bad DataRecordNotValid "" None None)
    end.
Proof. exact t_C24_add_exact. Qed.
Print Assumptions C24_add_exact.
Example ex_C24_add_exact :
  exists b ord w s sb f rf va w' out,
    fair ord /\
    reach b w /\
    set_at w s sb /\
    w_refs w !! f = Some rf /\
    ref_valid w rf = Some va /\
    step ord w (OSetAdd s f) = Some (w', out) /\
    o_recs (ob_at w' s) <> o_recs sb.
Proof. exact tex_C24_add_exact. Qed.
