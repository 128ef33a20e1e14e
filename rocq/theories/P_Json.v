(** Generated by tools/gen_p.py from T_Json.v: the property theorems, nothing else. *)
From Verif Require Import T_Json Ex_Base Ex_Json JsonEx.
Open Scope nat_scope.

(** The JSON text of a vault is JSON, and what it says is the contents of the vault: as an object, with a name for every record. *)
Theorem C36_vault_object_partial :
  forall b ord w o ob fmt tab (ut : bool) tm addr, reach b w -> fair ord -> vault_at w o ob ->
    (forall k, k ∈ o_order ob -> plain_json (tx k)) -> (forall r k v, r ∈ o_recs ob -> stored w r k = Some v -> plain_value v) ->
    (ut = true -> plain_json tm) -> (forall r, ut = false -> r ∈ o_recs ob -> plain_json (addr r)) ->
    exists t rs ms, vault_json ord w o fmt tab ut tm addr false = Some t /\ rs ≡ₚ elements (o_recs ob) /\ parse_json t = Some (JObject ms) /\
      Forall2 (fun (e : nat * nat) m => exists l, json_record w (o_order ob) e.2 l /\ m = (if ut then tm ++ dec (Z.of_nat e.1) else addr e.2, JObject l)) (imap pair rs) ms.
Proof. exact t_C36_vault_object_partial. Qed.
Print Assumptions C36_vault_object_partial.
Example ex_C36_vault_object_partial :
  exists b ord w o ob (ut : bool) tm addr,
    reach b w /\
    fair ord /\
    vault_at w o ob /\
    (forall k, k ∈ o_order ob -> plain_json (tx k)) /\
    (forall r k v, r ∈ o_recs ob -> stored w r k = Some v -> plain_value v) /\
    (ut = true -> plain_json tm) /\
    (forall r, ut = false -> r ∈ o_recs ob -> plain_json (addr r)) /\
    size (o_recs ob) = 4.
Proof. exact tex_C36_vault_object_partial. Qed.
Example ex_C36_vault_object_partial__addr :
  exists b ord w o ob (ut : bool) tm addr,
    reach b w /\
    fair ord /\
    vault_at w o ob /\
    (forall k, k ∈ o_order ob -> plain_json (tx k)) /\
    (forall r k v, r ∈ o_recs ob -> stored w r k = Some v -> plain_value v) /\
    (ut = true -> plain_json tm) /\
    (forall r, ut = false -> r ∈ o_recs ob -> plain_json (addr r)).
Proof. exact tex_C36_vault_object_partial__addr. Qed.

(** As an array. *)
Theorem C36_vault_array_partial :
  forall b ord w o ob fmt tab ut tm addr, reach b w -> fair ord -> vault_at w o ob ->
    (forall k, k ∈ o_order ob -> plain_json (tx k)) -> (forall r k v, r ∈ o_recs ob -> stored w r k = Some v -> plain_value v) ->
    exists t rs js, vault_json ord w o fmt tab ut tm addr true = Some t /\ rs ≡ₚ elements (o_recs ob) /\ parse_json t = Some (JArray js) /\
      Forall2 (fun r j => exists l, json_record w (o_order ob) r l /\ j = JObject l) rs js.
Proof. exact t_C36_vault_array_partial. Qed.
Print Assumptions C36_vault_array_partial.
Example ex_C36_vault_array_partial :
  exists b ord w o ob,
    reach b w /\
    fair ord /\
    vault_at w o ob /\
    (forall k, k ∈ o_order ob -> plain_json (tx k)) /\
    (forall r k v, r ∈ o_recs ob -> stored w r k = Some v -> plain_value v) /\
    size (o_recs ob) = 4.
Proof. exact tex_C36_vault_array_partial. Qed.

(** The same for a set that is bound to a vault. *)
Theorem C36_set_object_partial :
  forall ord w s sb p fmt tab (ut : bool) tm addr, reach true w -> fair ord -> set_at w s sb -> o_parent sb = Some p ->
    (forall k, k ∈ o_order sb -> plain_json (tx k)) -> (forall r k v, r ∈ o_recs sb -> stored w r k = Some v -> plain_value v) ->
    (ut = true -> plain_json tm) -> (forall r, ut = false -> r ∈ o_recs sb -> plain_json (addr r)) ->
    exists t rs ms, set_json ord w s fmt tab ut tm addr false = Some t /\ rs ≡ₚ elements (o_recs sb) /\ parse_json t = Some (JObject ms) /\
      Forall2 (fun (e : nat * nat) m => exists l, json_record w (o_order sb) e.2 l /\ m = (if ut then tm ++ dec (Z.of_nat e.1) else addr e.2, JObject l)) (imap pair rs) ms.
Proof. exact t_C36_set_object_partial. Qed.
Print Assumptions C36_set_object_partial.
Example ex_C36_set_object_partial :
  exists ord w s sb p (ut : bool) tm addr,
    reach true w /\
    fair ord /\
    set_at w s sb /\
    o_parent sb = Some p /\
    (forall k, k ∈ o_order sb -> plain_json (tx k)) /\
    (forall r k v, r ∈ o_recs sb -> stored w r k = Some v -> plain_value v) /\
    (ut = true -> plain_json tm) /\
    (forall r, ut = false -> r ∈ o_recs sb -> plain_json (addr r)) /\
    size (o_recs sb) = 3.
Proof. exact tex_C36_set_object_partial. Qed.

Theorem C36_set_array_partial :
  forall ord w s sb p fmt tab ut tm addr, reach true w -> fair ord -> set_at w s sb -> o_parent sb = Some p ->
    (forall k, k ∈ o_order sb -> plain_json (tx k)) -> (forall r k v, r ∈ o_recs sb -> stored w r k = Some v -> plain_value v) ->
    exists t rs js, set_json ord w s fmt tab ut tm addr true = Some t /\ rs ≡ₚ elements (o_recs sb) /\ parse_json t = Some (JArray js) /\
      Forall2 (fun r j => exists l, json_record w (o_order sb) r l /\ j = JObject l) rs js.
Proof. exact t_C36_set_array_partial. Qed.
Print Assumptions C36_set_array_partial.
Example ex_C36_set_array_partial :
  exists ord w s sb p,
    reach true w /\
    fair ord /\
    set_at w s sb /\
    o_parent sb = Some p /\
    (forall k, k ∈ o_order sb -> plain_json (tx k)) /\
    (forall r k v, r ∈ o_recs sb -> stored w r k = Some v -> plain_value v).
Proof. exact tex_C36_set_array_partial. Qed.

(** A reference to a record: the record if it is valid, otherwise an empty object. *)
Theorem C36_ref_partial :
  forall b w f r o ob fmt tab, reach b w -> denotes w f r -> bound_to w f o -> vault_at w o ob -> valid_rec w r ->
    (forall k, k ∈ o_order ob -> plain_json (tx k)) -> (forall k v, stored w r k = Some v -> plain_value v) ->
    exists t l, ref_json w f fmt tab = Some t /\ parse_json t = Some (JObject l) /\ json_record w (o_order ob) r l.
Proof. exact t_C36_ref_partial. Qed.
Print Assumptions C36_ref_partial.
Example ex_C36_ref_partial :
  exists b w f r o ob,
    reach b w /\
    denotes w f r /\
    bound_to w f o /\
    vault_at w o ob /\
    valid_rec w r /\
    (forall k, k ∈ o_order ob -> plain_json (tx k)) /\
    (forall k v, stored w r k = Some v -> plain_value v).
Proof. exact tex_C36_ref_partial. Qed.

Theorem C36_ref_not_valid :
  forall b w f rf fmt tab, reach b w -> w_refs w !! f = Some rf -> (forall r, f_rec rf = Some r -> ~ valid_rec w r) ->
    exists t, ref_json w f fmt tab = Some t /\ parse_json t = Some (JObject []).
Proof. exact t_C36_ref_not_valid. Qed.
Print Assumptions C36_ref_not_valid.
Example ex_C36_ref_not_valid :
  exists b w f rf,
    reach b w /\
    w_refs w !! f = Some rf /\
    (forall r, f_rec rf = Some r -> ~ valid_rec w r) /\
    f_rec rf = Some 4.
Proof. exact tex_C36_ref_not_valid. Qed.

(** A set without a vault gives an empty object. *)
Theorem C36_set_not_valid :
  forall ord w s sb fmt tab ut tm addr arr, set_at w s sb -> o_parent sb = None ->
    exists t, set_json ord w s fmt tab ut tm addr arr = Some t /\ parse_json t = Some (JObject []).
Proof. exact t_C36_set_not_valid. Qed.
Print Assumptions C36_set_not_valid.
Example ex_C36_set_not_valid :
  exists w s sb,
    set_at w s sb /\
    o_parent sb = None.
Proof. exact tex_C36_set_not_valid. Qed.

(** A value can be read off its JSON, if its type is known and can be printed. *)
Theorem C36_values_differ :
  forall v v', vty v = vty v' -> (forall n, vty v <> TOther n) -> json_of v = json_of v' -> v = v'.
Proof. exact t_C36_values_differ. Qed.
Print Assumptions C36_values_differ.
Example ex_C36_values_differ :
  exists v v',
    vty v = vty v' /\
    (forall n, vty v <> TOther n) /\
    json_of v = json_of v'.
Proof. exact tex_C36_values_differ. Qed.

(** ToStrings: for every record the keys in their order, each with the text of the value. *)
Theorem C36_vault_strings :
  forall b ord w o ob, reach b w -> fair ord -> vault_at w o ob ->
    exists rs ls, vault_strings ord w o = Some ls /\ rs ≡ₚ elements (o_recs ob) /\
      Forall2 (fun r l => Forall2 (fun k (m : string * text) => exists v, stored w r k = Some v /\ m = (k, to_string v)) (o_order ob) l) rs ls.
Proof. exact t_C36_vault_strings. Qed.
Print Assumptions C36_vault_strings.
Example ex_C36_vault_strings :
  exists b ord w o ob,
    reach b w /\
    fair ord /\
    vault_at w o ob /\
    size (o_recs ob) = 4.
Proof. exact tex_C36_vault_strings. Qed.

Theorem C36_set_strings :
  forall ord w s sb, reach true w -> fair ord -> set_at w s sb ->
    exists rs ls, set_strings ord w s = Some ls /\ rs ≡ₚ elements (o_recs sb) /\
      Forall2 (fun r l => Forall2 (fun k (m : string * text) => exists v, stored w r k = Some v /\ m = (k, to_string v)) (o_order sb) l) rs ls.
Proof. exact t_C36_set_strings. Qed.
Print Assumptions C36_set_strings.
Example ex_C36_set_strings :
  exists ord w s sb,
    reach true w /\
    fair ord /\
    set_at w s sb /\
    size (o_recs sb) = 3.
Proof. exact tex_C36_set_strings. Qed.

Theorem C36_ref_strings :
  forall b w f r o ob, reach b w -> denotes w f r -> bound_to w f o -> vault_at w o ob -> valid_rec w r ->
    exists l, ref_strings w f = Some l /\ Forall2 (fun k (m : string * text) => exists v, stored w r k = Some v /\ m = (k, to_string v)) (o_order ob) l.
Proof. exact t_C36_ref_strings. Qed.
Print Assumptions C36_ref_strings.
Example ex_C36_ref_strings :
  exists b w f r o ob,
    reach b w /\
    denotes w f r /\
    bound_to w f o /\
    vault_at w o ob /\
    valid_rec w r.
Proof. exact tex_C36_ref_strings. Qed.

(** Texts are not escaped: a quote, a backslash or a line break in a value or in the name of a key, and the result is not JSON. *)
Theorem C36_quote_refuted :
  exists w o ob t, reach true w /\ vault_at w o ob /\ (exists r, o_recs ob = {[r]} /\ stored w r "s" = Some (VStr "a""b")) /\
    vault_json id_order w o false 2 true (tx "Record") (fun _ => []) false = Some t /\ parse_json t = None.
Proof. exact t_C36_quote_refuted. Qed.
Print Assumptions C36_quote_refuted.

Theorem C36_line_break_refuted :
  exists w o ob t, reach true w /\ vault_at w o ob /\ (exists r, o_recs ob = {[r]} /\ stored w r "s" = Some (VStr (st [LF]))) /\
    vault_json id_order w o false 2 true (tx "Record") (fun _ => []) false = Some t /\ parse_json t = None.
Proof. exact t_C36_line_break_refuted. Qed.
Print Assumptions C36_line_break_refuted.

Theorem C36_key_with_backslash_refuted :
  exists w o ob t, reach true w /\ vault_at w o ob /\ o_order ob = ["a\"%string] /\
    vault_json id_order w o false 2 true (tx "Record") (fun _ => []) false = Some t /\ parse_json t = None.
Proof. exact t_C36_key_with_backslash_refuted. Qed.
Print Assumptions C36_key_with_backslash_refuted.

(** Two vaults with different keys and values and the same text: a value that contains quotes is taken for another member. *)
Theorem C36_same_text_refuted :
  exists w o p ob pb t, reach true w /\ vault_at w o ob /\ vault_at w p pb /\ o_order ob = ["s"%string] /\ o_order pb = ["s"%string; "t"%string] /\ size (o_recs ob) = 1 /\
    vault_json id_order w o false 2 true (tx "Record") (fun _ => []) false = Some t /\ vault_json id_order w p false 2 true (tx "Record") (fun _ => []) false = Some t /\
    is_Some (parse_json t).
Proof. exact t_C36_same_text_refuted. Qed.
Print Assumptions C36_same_text_refuted.

(** Values of a type without a text are lost. *)
Theorem C36_no_text_refuted :
  exists v v', v <> v' /\ vty v = vty v' /\ json_value (Some v) = json_value (Some v').
Proof. exact t_C36_no_text_refuted. Qed.
Print Assumptions C36_no_text_refuted.

(** A set whose vault is gone is an object even if an array was asked for. *)
Theorem C36_array_of_lost_set_refuted :
  exists w s sb t, reach true w /\ set_at w s sb /\ set_json id_order w s false 2 true (tx "Record") (fun _ => []) true = Some t /\ parse_json t = Some (JObject []).
Proof. exact t_C36_array_of_lost_set_refuted. Qed.
Print Assumptions C36_array_of_lost_set_refuted.
