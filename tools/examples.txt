# theorem[__suffix] | x := witness ; ... | extra conjuncts | tactic
C06_others_found_by_equality | p := OEraseRecord 0 "age" (VInt I32 30) | exists r, r ∈ o_recs ob /\ ~ valid_rec w' r | ex; exists 0; ex
C06_erase_effect_on_ordered_index | p := OEraseRecords 0 "age" (VInt I32 30) None | exists r, r ∈ o_recs ob /\ ~ valid_rec w' r | ex; exists 1; ex
C06_others_found_in_order_partial | p := OEraseRef 0 0 ; k := "age" ; v := VInt I32 40 ; x := 2 | ~ valid_rec w' 0 | ex; only_lost 0
C06_eraserecord_exact | k := "age" ; v := VInt I32 30 | res_ok res = true
C06_eraserecord_exact__absent | k := "age" ; v := VInt I32 99 | res_ok res = false
C11_eraserecords_limit | k := "age" ; v := VInt I32 30 ; amt := Some 1 | res_ok res = true /\ filed ob k v 0 /\ filed ob k v 1
C06_eraseref_exact | | done_ = true
C06_eraseref_exact__erased | f := 4 | done_ = false
C22_sets_follow_erasure | p := OEraseRef 0 0 | 0 ∈ o_recs sb /\ 2 ∈ o_recs sb
C22_sets_hold_valid_records | r := 2
C24_set_ops_leave_vaults | p := OSetClear 10 | o_recs (ob_at w 10) <> o_recs (ob_at w' 10)
C24_set_ops_leave_vaults__remove | b := false ; w := state false sc ; p := OEraseRef 10 0 | o_recs (ob_at w 10) <> o_recs (ob_at w' 10)
C19_invalid_forever | f := 4 ; r := 4 ; w' := nw (nw w (OSetData 0 "age" (VInt I32 1))) (OCreateRecord 0 None [("id", VInt I32 8)]) | bound_to w' 4 0
C07_values_change_only_by_setdata | p := OSetData 0 "age" (VInt I32 31) ; r := 1 ; k := "age" | out = ORes (okres Success "age" (Some (TInt I32)) (Some (TInt I32))) | ex; intros [_ H]; revert H; refute_dec
C13_keys_change_only_by_key_ops | p := OSetData 0 "age" (VInt I32 31) | stored w' 0 "age" <> stored w 0 "age" | ex; cbn; intuition discriminate
C19_members_change_only_by_create_and_erase | p := OCreateRecord 0 (Some 9) [("id", VInt I32 8)] | size (o_recs ob') = S (size (o_recs ob))
C13_getters_agree | | get_keys ob = ["id"; "age"; "name"]
C13_set_keys | 
C43_types_hold | k := "age"
C15_duplicate_rejected | k := "age" ; d := VInt I32 5 ; t := TInt I32 ; p := OAddKey 0 "age" (VInt I32 5) | | ex; by left
C15_addkey_exact | k := "tall" ; d := VBool true | size (o_recs ob) = 4
C15_sets_get_key | k := "tall" ; d := VBool true | size (o_recs sb) = 3
C16_generated_exact | w := state true (sc_keys ++ sc_recs) ; k := "nr" ; t := TInt I64 ; g := fun i _ _ => VInt I64 (Z.of_nat i) | size (o_recs ob) = 4 /\ out = ORes (okres Success k (Some t) None)
C16_generated_exact__clash | w := state true (sc_keys ++ sc_recs) ; k := "nr" ; t := TInt I64 ; g := fun i _ _ => VInt I64 (Z.of_nat (i / 2)) | size (o_recs ob) = 4 /\ out = ORes (bad UniqueKeyValueAlredyInSet k (Some t) None)
C16_without_generator | w := state true sc_keys ; k := "nr" ; t := TInt I64 | out = ORes (okres Success k (Some t) None)
C16_without_generator__records | k := "nr" ; t := TInt I64 | o_recs ob <> ∅
C14_removekey_exact | k := "age" | out = OBool true /\ size (o_recs ob) = 4
C17_updatekey_exact | k := "age" ; d := VInt I32 21 | out = ORes (okres Success "age" (Some (TInt I32)) (Some (TInt I32)))
C17_default_in_force | w := nw W (OUpdateKey 0 "age" (VInt I32 21)) ; k := "age" ; d := VInt I32 21 ; w1 := nw w (OEraseRef 0 0) ; f := Some 9 ; ps := [("id", VInt I32 8)] | | ex; apply nw_later_if; [apply later_if_now|cbn; intuition discriminate|vmr]
C09_request_exact | rt := RInterval ; k := "age" ; bv := VInt I32 18 ; ev := VInt I32 40 ; ib := true ; s := 12 | res_ok res = true /\ size (o_recs (ob_at w' s)) = 3
C09_request_exact__set | o := 10 ; ob := ob_at w 10 ; pv := 0 ; rt := RGreater ; k := "age" ; bv := VInt I32 30 ; s := 12 | res_ok res = true /\ size (o_recs (ob_at w' s)) = 1
C04_request_sound | rt := RLess ; k := "age" ; bv := VInt I32 40 ; amt := Some 2 ; p := Some (fun r _ => Nat.even r) ; s := 12 ; r := 0
C09_empty_interval | k := "age" ; bv := VInt I32 40 ; ev := VInt I32 30 ; s := 12 | | ex; left; dec
C09_no_overrun | rt := RLess ; k := "age" ; bv := VInt I32 40
C11_request_limit | rt := RLess ; k := "age" ; bv := VInt I32 40 ; n := 2 ; s := 12 | size (o_recs sb') = 2
C10_complex_request_exact | q := QOr (QAnd (QLeaf LGreater "age" (VInt I32 18) (fun _ _ => true)) (QLeaf LLess "age" (VInt I32 40) (fun _ _ => true))) (QLeaf LEqual "id" (VInt I32 4) (fun _ _ => true)) ; s := 12 | size (o_recs (ob_at w' s)) = 3
C04_getrecord_exact | k := "id" ; v := VInt I32 2 ; f := 9 | res_ok res = true
C04_getrecords_exact | k := "age" ; v := VInt I32 30 ; res := okres Success "age" (Some (TInt I32)) (Some (TInt I32)) ; l := [0; 1] | | ex
C11_getrecords_limit | k := "age" ; v := VInt I32 30 ; n := 1 ; res := okres Success "age" (Some (TInt I32)) (Some (TInt I32)) ; l := [0]
C12_sorted_order | k := "age" ; l := [3; 0; 1; 2]
C12_reverse_and_limit | k := "age" ; l := [3; 0; 1; 2]
C12_unknown_key_empty | k := "color" ; amt := Some 3
C12_sort_by | k := "age" ; f := fun i _ => i <? 1 ; l := [3; 0; 1; 2] ; vs := [3; 0]
C01_unique_keys_stay_unique | k := "id" ; r1 := 0 ; r2 := 2
C02_failed_create_changes_nothing | f := Some 9 ; ps := [("age", VInt I32 9); ("id", VInt I32 2)]
C02_create_succeeds_iff | f := Some 9 ; ps := [("age", VInt I32 9); ("id", VInt I32 8)] | res_ok res = true
C02_create_succeeds_iff__type | f := None ; ps := [("age", VInt I64 9); ("id", VInt I32 8)] | res_ok res = false
C03_create_stores_exactly | f := Some 0 ; ps := [("age", VInt I32 9); ("id", VInt I32 8); ("age", VInt I32 30)]
C18_allocated_iff_used | r := 4 | is_Some (w_recs w !! r)
C18_ref_ops_defined | p := OCopyRef 9 4
C18_safe_programs_defined | p := OEraseRecords 0 "age" (VInt I32 30) None
C20_isvalid_exact | f := 4
C20_equality_meaning | f := 0 ; g := 1 ; rf := rf_at w 0 ; rg := rf_at w 1
C20_equality_equivalence | g := 4 ; h := 9 ; rg := rf_at w 4 ; rh := rf_at w 9
C42_setmany_is_sequence | ps := [("age", VInt I32 9); ("id", VInt I32 8); ("name", VStr "x")] | res_ok res = false /\ stored w' 0 "age" <> stored w 0 "age" | ex; ne
C42_success_stores_all | ps := [("age", VInt I32 9); ("name", VStr "x"); ("age", VInt I32 10)]
C08_setdata_answer | k := "id" ; v := VInt I32 77 | res_ok res = false
C08_setdata_answer__ok | k := "age" ; v := VInt I32 77 | res_ok res = true
C08_setdata_empty_ref | f := 9 ; k := "age" ; v := VInt I32 77
C07_read_your_write | k := "age" ; v := VInt I32 77
C07_getdata_exact | k := "age" ; t := TInt I32
C05_setdata_effect_on_index | k := "age" ; v := VInt I32 40 | filed ob "age" (VInt I32 30) 1
C05_setdata_keeps_others_partial | k := "age" ; v := VInt I32 40 ; x := 2 ; k' := "age" | | ex; intros _; ne
C21_sets_follow_updates | k := "age" ; v := VInt I32 77 | 0 ∈ o_recs sb
C23_join_exact | | out = ORes (okres Success "" None None) /\ o_recs (ob_at w' s) <> o_recs sb
C23_exclude_exact | | out = ORes (okres Success "" None None) /\ o_recs (ob_at w' s) <> o_recs sb
C23_intersect_exact | | out = ORes (okres Success "" None None) /\ o_recs (ob_at w' s) <> o_recs sb
C23_union_exact | | out = ORes (okres Success "" None None) /\ size (o_recs (ob_at w' z)) = 4
C23_intersection_exact | | out = ORes (okres Success "" None None) /\ size (o_recs (ob_at w' z)) = 2
C23_defined | | o_recs sb <> o_recs ab
C12_create_after_equals | f := None ; ps := [("age", VInt I32 30); ("id", VInt I32 8)] ; k := "age" ; v := VInt I32 30 ; l := [3; 0; 1; 2] ; l' := [3; 0; 1; 6; 2]
C12_setdata_after_equals | f := 3 ; r := 3 ; k := "age" ; v := VInt I32 30 ; l := [3; 0; 1; 2] ; l' := [0; 1; 3; 2]
C39_exclusion_partial | n := 3 ; l := [MCall 0 CReadLock; MGo 0; MGo 0; MGo 0; MGo 0; MGo 0; MCall 1 CWriteLock; MGo 1; MGo 1; MGo 1; MGo 1; MCall 0 CReadUnlock; MGo 0; MGo 0; MGo 0; MGo 0; MGo 0; MGo 1] ; s := default (m_init 0) (mrun false (m_init n) l) ; t := 1 ; u := 0 | | mx
C39_writers_exclude | sp := true ; n := 2 ; l := [MCall 0 CReadLock; MGo 0; MGo 0; MGo 0; MGo 0; MGo 0; MCall 1 CWriteLock; MGo 1; MGo 1; MGo 1; MGo 1; MSpurious 1; MGo 1] ; s := default (m_init 0) (mrun sp (m_init n) l) ; t := 1 ; u := 1 | m_pcs s = [Reading; Writing] | mx
C39_readers_share | sp := true ; n := 2 ; l := [MCall 0 CReadLock; MGo 0; MGo 0; MGo 0; MGo 0; MGo 0] ; s := default (m_init 0) (mrun sp (m_init n) l) ; t := 1 | | split; [mx|split; [mx|intros [|[|u]] p H; vm_compute in H; [injection H as <-; by right|injection H as <-; by left|discriminate]]]
C39_only_after_spurious_wakeup_partial | n := 2 ; l := [MCall 0 CReadLock; MGo 0; MGo 0; MGo 0; MGo 0; MGo 0; MCall 1 CWriteLock; MGo 1; MGo 1; MGo 1; MGo 1; MSpurious 1; MGo 1] ; s := default (m_init 0) (mrun true (m_init n) l) ; t := 1 ; u := 0 | | mx
C39_spurious_wakeup_breaks_partial | n := 2 ; l := [MCall 0 CReadLock; MGo 0; MGo 0; MGo 0; MGo 0; MGo 0; MCall 1 CWriteLock; MGo 1; MGo 1; MGo 1; MGo 1] ; s := default (m_init 0) (mrun true (m_init n) l) ; t := 1 ; u := 0 | | mx
C39_one_waiter | sp := true ; n := 2 ; l := [MCall 0 CReadLock; MGo 0; MGo 0; MGo 0; MGo 0; MGo 0; MCall 1 CWriteLock; MGo 1; MGo 1; MGo 1; MGo 1] ; s := default (m_init 0) (mrun sp (m_init n) l) ; t := 1 ; u := 1 | | mx
C39_no_new_readers | sp := true ; n := 2 ; l := [MCall 0 CReadLock; MGo 0; MGo 0; MGo 0; MGo 0; MGo 0; MCall 1 CWriteLock; MGo 1; MGo 1] ; s := default (m_init 0) (mrun sp (m_init n) l) ; t := 1 ; p := WL54 ; a := MGo 1 ; s' := default (m_init 0) (mstep sp s a) ; u := 0 | | mx
C40_can_always_finish | sp := true ; n := 3 ; l := [MCall 0 CReadLock; MGo 0; MGo 0; MGo 0; MGo 0; MGo 0; MCall 1 CWriteLock; MGo 1; MGo 1; MGo 1; MGo 1; MCall 2 CReadLock] ; s := default (m_init 0) (mrun sp (m_init n) l) | m_pcs s = [Reading; Waiting; RL20] | mx
C40_some_thread_can_move | sp := true ; n := 3 ; l := [MCall 0 CReadLock; MGo 0; MGo 0; MGo 0; MGo 0; MGo 0; MCall 1 CWriteLock; MGo 1; MGo 1; MGo 1; MGo 1; MCall 2 CReadLock] ; s := default (m_init 0) (mrun sp (m_init n) l) ; t := 1 ; p := Waiting | | mx
C41_holds_exactly | n := 2 ; l := [RLock 0 KRead; RNext 0; RGo 0; RGo 0; RGo 0; RGo 0; RGo 0; RLock 0 KRead; RLock 1 KRead; RNext 1; RGo 1; RGo 1; RGo 1; RGo 1; RGo 1] ; s := default (rs_init 0) (rrun (rs_init n) l) ; t := 0 ; th := RThread [KRead; KRead] (RCount 2 0) [] ; p := Reading | | mx
C41_holds_exactly__write | n := 2 ; l := [RLock 0 KRead; RNext 0; RGo 0; RGo 0; RGo 0; RGo 0; RGo 0; RLock 0 KWrite; RNext 0; RGo 0; RGo 0; RGo 0; RGo 0; RGo 0; RNext 0; RGo 0; RGo 0; RGo 0; RGo 0] ; s := default (rs_init 0) (rrun (rs_init n) l) ; t := 0 ; th := RThread [KWrite; KRead] (RCount 1 1) [] ; p := Writing | | mx
C41_exclusion | n := 2 ; l := [RLock 0 KRead; RNext 0; RGo 0; RGo 0; RGo 0; RGo 0; RGo 0; RLock 0 KWrite; RNext 0; RGo 0; RGo 0; RGo 0; RGo 0; RGo 0; RNext 0; RGo 0; RGo 0; RGo 0; RGo 0] ; s := default (rs_init 0) (rrun (rs_init n) l) ; t := 0 ; th := RThread [KWrite; KRead] (RCount 1 1) [] ; p := Writing ; u := 1 ; uh := RThread [] (RCount 0 0) [] ; q := Out | | mx
C41_operations_defined | n := 2 ; l := [RLock 0 KRead; RNext 0; RGo 0; RGo 0; RGo 0; RGo 0; RGo 0; RLock 0 KWrite] ; s := default (rs_init 0) (rrun (rs_init n) l) ; t := 0 ; th := RThread [KWrite; KRead] (RCount 1 1) [CReadUnlock; CWriteLock] ; p := Reading | | mx
C41_can_always_finish | n := 2 ; l := [RLock 0 KRead; RNext 0; RGo 0; RGo 0; RGo 0; RGo 0; RGo 0; RLock 0 KWrite] ; s := default (rs_init 0) (rrun (rs_init n) l) | length (s_threads s) = 2 | mx
C32_roundtrip_partial | v := VInt I32 (-2147483647) | | mx
C32_roundtrip_partial__u64 | v := VInt U64 18446744073709551615 | | mx
C32_texts_differ | v1 := VInt I8 (-128) ; v2 := VInt I8 (-128) | | repeat split; discriminate
C32_integer_text | t := I32 ; z := (-40)%Z | to_string (VInt t z) = tx "-40" | mx
C33_accepts_exactly_numerals_partial | t := U16 ; s := tx "-70000" | from_string (TInt t) s = FsOk (VInt U16 61072) | mx
C33_accepts_exactly_numerals_partial__reject | t := U16 ; s := tx "12a" | from_string (TInt t) s = FsFail | mx
C33_value | t := I16 ; s := tx "40000" ; neg := false ; ds := [4;0;0;0;0]%Z ; v := VInt I16 (-25536) | | repeat split; try (vm_compute; reflexivity); [repeat constructor; lia|discriminate]
C33_undefined_iff | t := I64 ; s := tx "9223372036854775808" | from_string (TInt t) s = FsUB | mx
C33_bool | s := tx "true" | from_string TBool s = FsOk (VBool true) | mx
C30_reader_exact | f := tx "a,b" ; n := 1%nat | seen (moved n (open_reader f)) = (true, 1%Z, comma, default NUL (last f)) | mx
C30_chunked_equals_whole | f := repeat comma 5000 ; n := 4096%nat | seen (moved n (open_chunked f)) = (true, 4096%Z, comma, comma) | mx
C30_negative_read_iff | f := repeat comma (Z.to_nat 10489855) ; n := 5%nat | | unfold zlen; rewrite repeat_length, Z2Nat.id by lia; reflexivity
C31_consumes | f := tx "a,b" ; n := 1%nat ; sep := comma ; b := true ; row := [[]; tx "b"] ; r' := moved 3%nat (open_reader f) | | mx
C31_function_of_rest | f := tx "a,b" ; g := tx "xya,b" ; n := 1%nat ; m := 3%nat ; sep := comma ; b := true ; row := [[]; tx "b"] ; r' := moved 3%nat (open_reader f) | | mx
C31_finite | f := tx "a,b" ; fuel := 4%nat ; sep := comma | parse_file sep f = [[tx "a"; tx "b"]] | mx
C28_roundtrip_partial | sep := comma ; rows := [[tx "a"; []; tx ",x"]; [quote :: tx "q"; CR :: LF :: tx "z"]] | | csvx
C28_roundtrip_iff | sep := comma ; rows := [[tx "a"; []; tx ",x"]; [quote :: tx "q"; CR :: LF :: tx "z"]] | parse_file sep (concat (csv_line sep <$> rows)) = rows | csvx
C28_roundtrip_iff__not | sep := comma ; rows := [[tx "a"; CR :: tx "b"]; [tx "c"; []]] | parse_file sep (concat (csv_line sep <$> rows)) = [[tx "a"]; [tx "b"]; [tx "c"]] | csvx
C28_reads_back_exact | sep := Ascii.ascii_of_nat 59 ; rows := [[tx "a;b"; (tx "c" ++ CR :: tx "d;")%list; []]; [tx ",;"; []]] | parse_file sep (concat (csv_line sep <$> rows)) = [[tx "a"; tx "b"; tx "c"]; [tx "d"; []]; [tx ",;"]] | csvx
C29_field_count_iff | rows := [[tx "a"; []; quote :: tx "q"]; []; [CR :: LF :: tx "z"]] | length <$> parse_file comma (concat (csv_line comma <$> rows)) = [3%nat; 0%nat; 1%nat] | csvx
C29_fields_read_back | sep := comma ; rows := [[tx "a"; []]; [quote :: tx "q"; CR :: LF :: tx "z"; []]] | | csvx
C29_field_count_partial | sep := comma ; fields := [tx "a"; []; quote :: tx "q"; CR :: LF :: tx "z"] | | csvx
C35_is_an_operation | w := FW ; sep := comma ; load := true ; user := [] ; handler := fun _ row => row ; f := csv_line comma [tx "id"; tx "name"] ++ csv_line comma [tx "1"; tx "a,b"] ++ csv_line comma [tx "z"] ; w' := after (read_file w o sep load user handler (Some f)) ; ok := true | read_file w o sep load user handler (Some f) = Some (w', ok) | fx
C35_loads_exactly_partial | w := FW ; o := 5 ; sep := comma ; load := true ; user := [] ; handler := fun _ row => row ; f := csv_line comma [tx "id"; tx "name"] ++ csv_line comma [tx "1"; tx "a,b"] ++ csv_line comma [tx "z"] ++ csv_line comma [tx "9"] ++ csv_line comma [tx "7"] ; w' := after (read_file w o sep load user handler (Some f)) ; ok := true | o_recs (ob_at w' o) = {[3; 4; 6]} /\ get_errors (ob_at w' o) = [(3, "id"); (3, "id")] | fx
C35_defined | w := FW ; o := 5 ; sep := comma ; load := true ; user := [] ; handler := fun _ row => row ; f := csv_line comma [tx "id"; tx "name"] ++ csv_line comma [tx "1"; tx "a,b"] ++ csv_line comma [tx "z"; tx "q"; tx "r"] | | fx; apply rows_safe_b; vmr
C35_no_file | w := FW ; o := 5 ; sep := comma ; load := true ; user := [] ; handler := fun _ row => row | | fx
C34_saved_text | w := FW ; keys := [] ; sep := [comma] ; hk := true | save_file id_order w o keys sep hk = Some (saved (save_file id_order w o keys sep hk)) /\ length (saved (save_file id_order w o keys sep hk)) = 46 | fx; try (intros _ _; ne)
C34_save_load_partial | w := FW ; p := 5 ; pb := ob_at w 5 ; sep := comma ; hk := true ; handler := fun _ row => row ; f := saved (save_file id_order w o [] [sep] hk) | | save_load_tac
C38_version_4 | x := 81985529216486895 ; y := 18446744073709551615 | uuid x y = tx "01234567-89ab-4def-bfff-ffffffffffff" | repeat split; vm_compute; first [reflexivity|discriminate]
C38_randomness | x := 81985529216486895 ; y := 7 ; x' := 81985529216490991 ; y' := 4 | uuid x y = uuid x' y' | repeat split; vm_compute; first [reflexivity|discriminate]
C38_every_uuid | t := uuid 81985529216486895 7 | t = tx "01234567-89ab-4def-8000-000000000001" | split; [apply t_C38_version_4; split; vm_compute; first [reflexivity|discriminate]|vm_compute; reflexivity]
C38_tmp_file_name | prefix := tx "mv" ; x := 81985529216486895 ; y := 7 | tmp_file_name prefix x y = tx "/tmp/mv01234567-89ab-4def-8000-000000000001" | repeat split; vm_compute; first [reflexivity|discriminate]
C36_vault_object_partial | fmt := true ; tab := 3 ; ut := true ; tm := tx "Rec" ; addr := fun _ => [] | size (o_recs ob) = 4 | jx
C36_vault_object_partial__addr | fmt := false ; tab := 3 ; ut := false ; tm := [LF] ; addr := fun _ => tx "0x7f" | | jx
C36_vault_array_partial | fmt := true ; tab := 3 ; ut := true ; tm := tx "Rec" ; addr := fun _ => [] | size (o_recs ob) = 4 | jx
C36_set_object_partial | s := 10 ; sb := ob_at w 10 ; p := 0 ; fmt := true ; tab := 3 ; ut := true ; tm := tx "Rec" ; addr := fun _ => [] | size (o_recs sb) = 3 | jx
C36_set_array_partial | s := 10 ; sb := ob_at w 10 ; p := 0 ; fmt := false ; tab := 3 ; ut := true ; tm := tx "Rec" ; addr := fun _ => [] | | jx
C36_ref_partial | f := 1 ; r := 1 ; fmt := true ; tab := 2 | | jx
C36_ref_not_valid | f := 4 ; rf := rf_at w 4 ; fmt := true ; tab := 2 | f_rec rf = Some 4 | jx; intros r Hr; assert (f_rec (rf_at W 4) = Some 4) as E by vmr; rewrite E in Hr; injection Hr as <-; apply (bool_decide_eq_false_1 _); vmr
C36_set_not_valid | s := 12 ; sb := ob_at w 12 ; fmt := true ; tab := 2 ; ut := true ; tm := tx "Rec" ; addr := fun _ => [] ; arr := true | | jx
C36_values_differ | v := VStr "a""b" ; v' := VStr "a""b" | | repeat split; done
C36_vault_strings | | size (o_recs ob) = 4 | jx
C36_set_strings | s := 10 ; sb := ob_at w 10 | size (o_recs sb) = 3 | jx
C36_ref_strings | f := 1 ; r := 1 | | jx
C26_dropdata_exact | | size (o_recs ob) = 4
C26_dropvault_exact | | size (o_recs ob) = 4
C26_destroyed_exact | | size (o_recs ob) = 4
C45_valid_iff_vault_exists | s := 10 ; sb := ob_at w 10 | set_parent_valid sb = true
C45_invalid_set_answers | s := 12 ; sb := ob_at w 12 ; k := "age" ; v := VInt I32 30 ; f := 0 ; rf := rf_at w 0 |
C24_members_only_by_fill | p := OEraseRef 0 0 ; s := 10 ; sb := ob_at w 10 | o_recs (ob_at w' 10) <> o_recs sb | ex; cbn; intuition discriminate
C24_removed_stays_out | b := false ; w := nw (state false sc) (OEraseRef 10 0) ; s := 10 ; r := 0 ; sb := ob_at w 10 ; w' := nw w (OSetData 0 "age" (VInt I32 1)) | o_recs (ob_at (state false sc) 10) <> o_recs sb /\ stored w 0 "age" <> stored w' 0 "age" | ex; apply nw_later_if; [apply later_if_now|cbn; intuition discriminate|vmr]
C24_removeref_exact | p := 0 ; f := 0 ; s := 10 | out = OBool true
C24_removerecord_exact | p := 0 ; s := 10 ; k := "age" ; v := VInt I32 30 | out = ORes (okres Success "age" (Some (TInt I32)) (Some (TInt I32))) /\ o_recs (ob_at w' s) <> o_recs sb
C24_removerecords_exact | p := 0 ; s := 10 ; k := "age" ; v := VInt I32 30 ; amt := Some 1 | o_recs (ob_at w' s) <> o_recs sb /\ filed sb k v 0 /\ filed sb k v 1
C24_removal_answers | p := 0 ; s := 10 ; q := OEraseRecords 10 "age" (VInt I32 30) (Some 1) | o_recs (ob_at w' s) <> o_recs sb /\ filed sb "age" (VInt I32 30) 0 /\ filed sb "age" (VInt I32 30) 1
C24_clear_exact | s := 10 | size (o_recs sb) = 3
C24_reset_exact | s := 10 | size (o_recs sb) = 3
C45_stays_bound | p := ODropVault 0 ; s := 10 | o_parent (ob_at w' s) <> o_parent sb | ex; cbn; intuition discriminate
C45_stays_bound__other | p := ODropVault 1 ; s := 10 | size (o_recs sb) = 3 | ex; cbn; intuition discriminate
C09_request_set_indexed | rt := RInterval ; k := "age" ; bv := VInt I32 18 ; ev := VInt I32 40 ; ib := true ; s := 12 | size (o_recs (ob_at w' s)) = 3
C10_complex_set_indexed | q := QOr (QLeaf LGreater "age" (VInt I32 30) (fun _ _ => true)) (QLeaf LEqual "id" (VInt I32 4) (fun _ _ => true)) ; s := 12 | size (o_recs (ob_at w' s)) = 2
C25_copy_exact | src := 10 ; dst := 20 ; sb := ob_at w 10 | size (o_recs sb) = 3
C25_assign_exact | src := 10 ; dst := 11 ; sb := ob_at w 10 ; db := ob_at w 11 | size (o_recs sb) = 3 /\ o_recs db <> o_recs sb
C24_add_exact | s := 10 ; f := 3 ; va := true | o_recs (ob_at w' s) <> o_recs sb
C27_independent_step | o := 0 ; p := ODropVault 1 | | ex; nconc
C27_independent | o := 0 ; w' := nw W (ODropVault 1) | | ex; apply nw_later_while; [apply later_while_now|nconc|vmr]
C27_copy_exact | src := 0 ; dst := 20 ; sb := ob_at w 0 | size (o_recs sb) = 4 | ex; apply unmentionedb_ok; vmr
C27_assign_exact | src := 0 ; dst := 1 ; sb := ob_at w 0 ; db := ob_at w 1 | size (o_recs sb) = 4 /\ size (o_recs db) = 1
C37_print_exact | amt := Some 3 ; primary := "age" ; keys := [] ; addr := (fun _ => []) ; ks := get_keys (ob_at w 0) ; key := "age" ; ids := true ; rs := default [] (sorted_records w 0 "age" false (Some 3)) | length rs = 3 | px
C37_set_print_exact | s := 10 ; p := 0 ; primary := "" ; keys := ["age"; "name"] ; addr := (fun _ => []) ; ks := ["age"; "name"] ; key := "age" ; ids := true ; rs := default [] (sorted_records w 10 "age" false None) | length rs = 3 | px
C37_aligned | primary := "" ; keys := ["age"; "name"] ; addr := (fun _ => []) ; ks := ["age"; "name"] ; key := "age" | size (o_recs ob) = 4 | px
C37_all_records_shown | w := state true (sc_keys ++ [OCreateRecord 0 None [("id", VInt I32 1)]; OCreateRecord 0 None [("id", VInt I32 2)]; OCreateRecord 0 None [("id", VInt I32 3); ("age", VInt I32 40)]]) ; primary := "" ; keys := ["age"; "name"] ; addr := (fun _ => []) ; ks := ["age"; "name"] ; key := "age" ; ids := false | size (o_recs ob) = 3 | px
C37_set_not_valid | s := 12 ; ids := true ; primary := "" ; keys := [] ; addr := (fun _ => []) |
C37_table_of_refs | rfs := [rf_at w 1; rf_at w 3; rf_at w 0] ; amt := Some 2 ; keys := [] ; addr := (fun _ => []) ; ks := get_keys (ob_at w 0) ; ids := true | | px
C37_print_record_partial | ko := (fun l => l) ; f := 1 ; r := 1 ; addr := (fun _ => []) | | px
C46_unique_keys_findable | o := 0 ; k := "id" | size (o_recs ob) = 4 | fdx
C46_unique_keys_findable_in_sets | s := 10 ; o := 0 ; k := "id" | size (o_recs sb) = 3 | fdx
C47_stays_findable_step | o := 0 ; k := "age" ; p := OSetData 2 "age" (VInt I32 30) | stored w 2 "age" <> stored w' 2 "age" | fdx
C47_stays_findable_step__erase | o := 0 ; k := "age" ; p := OEraseRecords 0 "age" (VInt I32 30) None | size (o_recs (ob_at w' 0)) = 2 | fdx
C47_stays_findable | o := 0 ; k := "age" ; w' := nw (nw (nw W (OEraseRef 0 2)) (OCreateRecord 0 None [("id", VInt I32 9); ("age", VInt I32 30)])) (OSetData 3 "age" (VInt I32 30)) | size (o_recs (ob_at w' 0)) = 4 | fdx
C47_addkey_findable | o := 0 ; k := "new" ; d := VInt I32 5 | size (o_recs ob) = 4 | fdx
C47_request_by_value | rt := RInterval ; k := "age" ; bv := VInt I32 18 ; ev := VInt I32 40 ; ib := true ; s := 12 | size (o_recs (ob_at w' s)) = 3 | fdx
C47_complex_by_value | q := QOr (QLeaf LGreater "age" (VInt I32 30) (fun _ _ => true)) (QLeaf LEqual "id" (VInt I32 4) (fun _ _ => true)) ; s := 12 | size (o_recs (ob_at w' s)) = 2 | fdx
C47_getrecords_by_value | k := "age" ; v := VInt I32 30 ; l := [0; 1] ; res := okres Success "age" (Some (TInt I32)) (Some (TInt I32)) | | fdx
C47_sorted_all | k := "age" ; l := [3; 0; 1; 2] | | fdx
C48_new_exact | f := 20
C48_delete_exact | f := 4 | is_Some (w_recs w !! 4) /\ w_recs w' !! 4 = None
C48_reset_exact | f := 1 | denotes w f 1
C48_copy_exact | dst := 9 ; src := 1 | denotes w 1 1 /\ ~ denotes w 9 1
C48_move_exact | dst := 0 ; src := 1 | denotes w 1 1 /\ denotes w 0 0
C48_getrecords_refs | k := "age" ; v := VInt I32 30 ; fs := [9; 4; 2] | refs_to w' 0 = 2 | ex; left; ex
C48_getrecords_refs__set | o := 11 ; pv := 0 ; k := "age" ; v := VInt I32 30 ; fs := [9; 4; 2] | refs_to w' 0 = 2 | ex; right; ex
C48_getsorted_refs | k := "age" ; fs := [9; 4; 2; 0; 1] | refs_to w' 3 = 2
C48_changed_only_by_name | p := ODelVault 0 ; f := 0 | ~ valid_rec w' 0
C49_set_getters | p := 0 | get_keys sb = ["id"; "age"; "name"] /\ size (o_recs sb) = 3
C49_check_exact | f := 2 | set_check w s rf = Some true
C49_check_exact__out | f := 3 | set_check w s rf = Some false
C49_getkeyvalue_exact | k := "age" ; t := TInt I32 | get_key_value ob k t = (okres Success k (Some t) (Some t), Some (VInt I32 18))
C49_set_getkeyvalue | p := 0 ; pb := ob_at w 0 ; k := "age" ; t := TInt I32 | get_key_value pb k t = (okres Success k (Some t) (Some t), Some (VInt I32 18))
C49_size_after_create | f := Some 9 ; ps := [("id", VInt I32 50)] | res_ok res = true
C49_size_after_create__rejected | f := Some 9 ; ps := [("id", VInt I32 1)] | res_ok res = false
C49_size_after_erase | p := OEraseRecords 0 "age" (VInt I32 30) None | vault_size ob = 4 /\ vault_size (ob_at w' 0) = 2
C50_answers_for_its_content | ps := dprog ; w := dw ps ; l := (false, 1) | contents_after ps !! l = Some (Some (VInt I32 5)) /\ saver_get l (TInt I32) w = Some (Some (VInt I32 5)) /\ saver_get (false, 2) TStr w = Some (Some (VStr "abc")) | sx
C50_undefined_iff | ps := dprog ; w := dw ps ; p := DFromString (false, 3) [] | dstep w p = None /\ is_Some (dstep w (DFromString (false, 2) [])) | sx
C50_from_string_reports | ps := dprog ; w := dw ps ; l := (false, 0) ; t := tx "77" ; v := VInt I32 9 ; w' := nd w (DFromString l t) ; b := Some true | saver_get l (TInt I32) w' = Some (Some (VInt I32 77)) | sx
C50_others_untouched | ps := dprog ; w := dw ps ; p := DSwap (false, 0) (false, 2) ; w' := nd w p ; b := None ; l := (false, 1) | saver_get (false, 0) TStr w' = Some (Some (VStr "abc")) /\ saver_get l (TInt I32) w' = Some (Some (VInt I32 5)) | sx
C51_each_cell_has_one_owner | ps := dprog ; w := dw ps | size (d_cells w) = 3 /\ size (d_vars w) = 4 /\ d_next w = 9 | sx
C51_nothing_leaks | ps := dprog ++ [DDelete (false, 0); DDelete (false, 1); DDelete (false, 2); DDelete (false, 3)] ; w := dw ps | d_next w = 9 | sx
C52_called_by_reset_only | ps := dprog ; w := dw ps ; p := DReset (false, 1) ; w' := nd w p ; b := None | d_calls w = [] /\ d_calls w' = [(7, Some (VInt I32 5))] | sx
C52_set_then_reset | ps := dprog ; w := dw ps ; l := (false, 0) ; v := VBool true ; f := Some 3 ; w1 := nd w (DSet l v f) ; b1 := None ; w2 := nd w1 (DReset l) ; b2 := None | d_calls w2 = [(3, Some (VBool true))] | sx
C53_container_holds_what_was_stored | multi := true ; ps := cprog ; w := cw multi ps | c_size w = 3 /\ contents_under "a" (store_after multi ps) = [Some (VBool true); Some (VInt I32 5)] /\ found 1 "a" (store_after multi ps) = Some (Some (VInt I32 5)) | sx
C53_container_holds_what_was_stored__map | multi := false ; ps := cprog ; w := cw multi ps | c_size w = 2 /\ contents_under "a" (store_after multi ps) = [Some (VBool true)] | sx
C53_reports | multi := true ; ps := cprog ; w := cw multi ps ; p := CGetSaver 1 "a" 1 ; w' := nc multi w p ; b := Some true | saver_get (false, 1) (TInt I32) (c_d w') = Some (Some (VInt I32 5)) | sx
C53_undefined_iff | multi := true ; ps := cprog ++ [CVar (DReset (false, 0)); CAddSaver "e" 0] ; w := cw multi ps ; p := CFromString 0 "e" [] | cstep multi w p = None /\ is_Some (cstep multi w (CFromString 0 "b" [])) | sx
C53_each_cell_has_one_owner | multi := false ; ps := cprog ; w := cw multi ps | size (d_cells (c_d w)) = 4 /\ size (d_vars (c_d w)) = 4 /\ (c_nodes w).*1 = ["a"; "b"] | sx
C53_custom_deleters | multi := true ; ps := cprog ; w := cw multi ps ; p := CErase 1 "a" ; w' := nc multi w p ; b := None | d_calls (c_d w) = [] /\ d_calls (c_d w') = [(7, Some (VInt I32 5))] | sx
C53_set_then_erase | multi := true ; ps := cprog ; w := cw multi ps ; ch := 1 ; k := "a" ; v := VBool false ; f := Some 9 ; w1 := nc multi w (CSet ch k v f) ; b1 := None ; w2 := nc multi w1 (CErase ch k) ; b2 := None | d_calls (c_d w2) = [(9, Some (VBool false))] | sx
C53_unique_containers_are_maps | ps := cprog ; w := cw false ps | c_size w = 2 /\ ms_map (map_after ps) !! "b" = Some (Some (VStr "xy")) /\ c_get 3 "b" TStr w = Some (true, Some (VStr "xy")) | sx
C54_flag_agrees_with_code | p := OEraseRecord 0 "age" (VInt I32 30) | res_ok res = true | ex; try (intros; discriminate)
C54_flag_agrees_with_code__failed | p := OEraseRecord 0 "age" (VBool true) | res_ok res = false | ex; try (intros; discriminate)
C54_wrong_key_or_type | p := OGetRecord 0 "age" (VBool true) 9 ; o := 0 ; k := "age" ; t := TBool | res_code res = WrongType /\ res_saved res = Some (TInt I32) | ex; left; ex
C54_wrong_key_or_type__set | p := ORequest 11 REqual "nokey" (VBool true) (VBool true) false false None None 12 ; o := 11 ; pv := 0 ; k := "nokey" ; t := TBool | res_code res = WrongKey | ex; right; ex
C54_failure_changes_nothing | p := OEraseRecord 0 "age" (VInt I32 99) | res_code res = WrongValue
C54_failure_keeps_vault_data | p := OAddUniqueKey 0 "u" TBool | res_code res = TryToAddUniqueKeyInNonEmptyVaultWithoutLambda | ex; try (intros; discriminate)
C44_move_exact | src := 1 ; dst := 5 ; sb := ob_at w 1 | size (o_recs sb) = 1
C44_references_do_not_follow | src := 0 ; dst := 5 ; sb := ob_at w 0 ; f := 0 ; rf := rf_at w 0 ; r := 0 | size (o_recs sb) = 4
C44_sets_do_not_follow | src := 0 ; dst := 5 ; sb := ob_at w 0 ; s := 10 ; tb := ob_at w 10 | size (o_recs tb) = 3
C44_move_assign_exact | src := 1 ; dst := 0 ; sb := ob_at w 1 ; db := ob_at w 0 | size (o_recs sb) = 1 /\ size (o_recs db) = 4
C25_move_exact | src := 10 ; dst := 20 ; sb := ob_at w 10 ; p := 0 | size (o_recs sb) = 3
C55_foreign_files | sep := comma ; t := sample_file ; rows := [[tx "a"; [quote; LF] ++ tx "x,y"; []]; []; [tx "b"]; [[]; tx "c"]] | length t = 18%nat | split; [done|]; split; [apply sample_written|done]
C23_join_answers | | o_recs (ob_at w' s) <> o_recs sb /\ filed (ob_at w' s) "age" (VInt I32 18) 3
C23_union_answers | | size (o_recs (ob_at w' z)) = 4 /\ filed (ob_at w' z) "age" (VInt I32 18) 3
C23_intersection_answers | | size (o_recs (ob_at w' z)) = 2 /\ filed (ob_at w' z) "age" (VInt I32 30) 1
C23_exclude_answers | | o_recs (ob_at w' s) <> o_recs sb /\ filed (ob_at w' s) "age" (VInt I32 40) 2
C23_intersect_answers | | o_recs (ob_at w' s) <> o_recs sb /\ filed (ob_at w' s) "age" (VInt I32 30) 1
C56_can_always_finish_partial | cs := [[KRefGet 0; KErase [(0, [3])]]; [KRefSet 0 [[3]]; KGetRecords [0; 1] [2]]] ; l := replicate 9 0 ++ replicate 5 1 ; s := default (c_init []) (crun (c_init (program <$> cs)) l) | length (c_todo s) = 2 | lx
C56_no_deadlock_partial | cs := [[KRefGet 0; KErase [(0, [3])]]; [KRefSet 0 [[3]]; KGetRecords [0; 1] [2]]] ; l := replicate 9 0 ++ replicate 2 1 ; s := default (c_init []) (crun (c_init (program <$> cs)) l) | length (c_todo s) = 2 | lx
C57_no_race_partial | R := each ; cs := [[KRequest 0 [] [0; 1]; KSetIntersect 20 0 10 [1]; KSetClear 0 [0; 1]; KRefGet 0; KErase [(0, [10; 11])]; KSetAdd 10 1]; [KRefSet 0 [[1; 10]]; KSetSame 1 1; KGetRecords [0; 1] [2]; KReadFile [5; 6]; KErrors; KSetGet 11 []]] ; l := replicate 9 0 ++ replicate 2 1 ; s := default (c_init []) (crun (c_init (program <$> cs)) l) | length (c_todo s) = 2 | lx
C58_linearizable | V := 0 ; own := own3 ; n := 3 ; w0 := W ; s := sto true 0 own3 3 W sched | length (l_log s) = 6 /\ l_phase s = [Outside; Outside; Outside] /\ l_log s !! 0 = Some (ECall 0 (COp id_order (OSetData 0 "age" (VInt I32 31)))) | cx
C58_answers_stable | V := 0 ; own := own3 ; t := 2 ; c := CAsk (AGetData 2 "age" (TInt I32)) ; w1 := W ; w2 := nw W (OGetRecord 0 "age" (VInt I32 30) 1) ; w1' := W ; r := RpData (okres Success "age" (Some (TInt I32)) (Some (TInt I32)), Some (VInt I32 40)) | f_rec (rf_at w1 1) = Some 1 /\ f_rec (rf_at w2 1) = Some 0 | cx
C59_no_use_after_free | n := 2 ; l := end_sched | lf_freed (life_to 2 end_sched) = true | fx
C59_alive_while_used | n := 2 ; l := get_sched ; s := life_to 2 get_sched | lf_count s = 1 | fx
C59_freed_iff_unused | n := 2 ; l := end_sched ; s := life_to 2 end_sched | lf_freed s = true | fx
C59_can_always_finish | n := 2 ; l := race_sched ; s := life_to 2 race_sched | lt_pc <$> lf_threads s = [LFree KDrop true; LFree KInv false] | fx
C60_accepts_exactly_decimals_partial | k := F64 ; s := tx "-12.50" | exists x, float_of_text k s = FpOk x | flx; eexists; vm_compute; reflexivity
C60_accepts_exactly_decimals_partial__rejected | k := F64 ; s := tx "1e5" | float_of_text k s = FpFail | flx
C60_value_partial | k := F64 ; s := tx "-12.50" ; neg := true ; ds := [1; 2] ; fs := [5; 0] ; x := neg12 | | flx
C60_whole_numbers_exact | k := F32 ; s := tx "-16777216.0" ; neg := true ; ds := [1; 6; 7; 7; 7; 2; 1; 6] ; fs := [0] ; x := read F32 (tx "-16777216.0") | | flx
C61_text_is_nearest | x := neg12 | text_of_float x = tx "-12.500000" | flx
C61_special | k := F64 ; x := S754_infinity true | text_of_float x = tx "-inf" | flx
C61_same_text_iff | x := pi32 ; y := pi64 | text_of_float x = text_of_float y | flx
C62_unreadable_iff | k := F32 ; x := pi32 | float_of_text k (text_of_float x) <> FpUB | flx
C62_whole_numbers | k := F32 ; x := neg20 ; z := -20 | | flx
C62_double_partial | x := neg12 | text_of_float x = tx "-12.500000" | flx
C62_double_partial__fraction | x := pi64 | text_of_float x = tx "3.140000" | flx
C62_float_partial | x := pi32 | text_of_float x = tx "3.140000" | flx
C63_can_always_finish | cs := [[VAssign 0 1 [2] [] 1 [0]; VSortBy 0 [(0, [VOn 1 (KErase [(0, [3])])])]]; [VAssign 1 0 [] [] 2 [4]; VGenerate 1 [(0, [VOn 0 (KRefSet 0 [[]])])] []]] ; l := replicate 30 0 ++ replicate 15 1 ; s := default (v_init []) (vrun (v_init (vprogram <$> cs)) l) | length (v_acts s) = 2 | vx
C63_no_deadlock | cs := [[VAssign 0 1 [2] [] 1 [0]; VSortBy 0 [(0, [VOn 1 (KErase [(0, [3])])])]]; [VAssign 1 0 [] [] 2 [4]; VMove 2 1]] ; l := replicate 30 0 ++ replicate 15 1 ; s := default (v_init []) (vrun (v_init (vprogram <$> cs)) l) | length (v_acts s) = 2 | vx
C64_no_race_partial | use := mine ; R := fun _ => each ; cs := [[VCopy 1 0 2 [0; 1]; VAssign 1 9 [] [] 1 [7]; VSortBy 0 [(0, [VOn 0 (KRefSet 0 [[0; 10]]); VOn 9 (KRequest 0 [] [3]); VOn 1 (KErase [(0, [])])])]]; [VOn 0 (KErase [(0, [1])]); VGenerate 0 [(1, [VOn 2 (KCreate 0 None true); VOn 9 KGet])] [11]; VOn 0 KErrors; VOn 2 (KDropVault [0] [])]] ; l := replicate 12 0 ++ replicate 2 1 ; s := default (v_init []) (vrun (v_init (vprogram <$> cs)) l) | length (v_acts s) = 2 | vx
C65_all_locks_free_in_the_end | cs := [[VAssign 0 1 [2] [] 1 [0]]; [VSortBy 1 [(0, [VOn 0 (KRefDump 0)])]]] ; l := replicate 64 0 ++ replicate 34 1 ; s := default (v_init []) (vrun (v_init (vprogram <$> cs)) l) | length (v_threads s) = 2 | vx
C66_names_the_function_called | support := true ; below := 4 ; nm := fun _ => "i" ; e := ECall "CreateRecord" [ECall "GetKeyType" [EFail (OpRes false Idle "age" None None) WrongKey]; EFormat false; EFail (OpRes false Idle "id" None None) WrongType] ; tr := ["SortBy"] ; on := true ; out := "" | head tr = Some "SortBy" | repeat split; cbn; intros; try lia; try discriminate
C66_undefined_iff | support := true ; below := 4 ; nm := fun _ => "i" ; e := EPrint ; tr := [] ; on := true ; out := "" | happen support below nm e (TState tr on out) = None | repeat split; cbn; intros; try lia; try discriminate
C67_sets_isolated | p := ODropVault 1 ; s := 10 ; sb := ob_at w 10 | size (o_recs sb) = 3 /\ o_parent sb = Some 0 | ex; first [let Hp := fresh in intros v0 Hp; vm_compute in Hp; injection Hp as <-; nconc|cbn; intuition discriminate]
C67_sets_isolated__request | p := ORequest 0 REqual "age" (VInt I32 30) (VInt I32 30) false false None None 11 ; s := 10 ; sb := ob_at w 10 | size (o_recs sb) = 3 /\ size (o_recs (ob_at w 11)) = 3 /\ size (o_recs (ob_at w' 11)) = 2 | ex; first [let Hp := fresh in intros v0 Hp; vm_compute in Hp; injection Hp as <-; nconc|cbn; intuition discriminate]
C67_sets_stay_as_they_are | s := 10 ; sb := ob_at w 10 ; w' := nw W (ODropVault 1) | size (o_recs sb) = 3 | ex; apply nw_later_while; [apply later_while_now|split; [let Hp := fresh in intros v0 Hp; vm_compute in Hp; injection Hp as <-; nconc|cbn; intuition discriminate]|vmr]
C67_vaults_isolated | v := 0 ; vb := ob_at w 0 ; p := ODropVault 1 | size (o_recs vb) = 4 | ex; nconc
C56_finish_exactly_partial | cs := quiet_dumps | ~ standoff cs /\ length cs = 3 | split; [apply quiet_dumps_quiet|reflexivity]
C56_standoff_partial | cs := loud_dumps | length cs = 3 | split; [apply loud_dumps_loud|reflexivity]
C56_no_deadlock_with_dumps_partial | cs := quiet_dumps ; l := replicate 5 0 ++ replicate 9 1 ++ [0] ; s := default (c_init []) (crun (c_init (program <$> cs)) l) | length (c_todo s) = 3 | split; [apply quiet_dumps_quiet|split; vm_compute; reflexivity]
C56_only_readers_partial | cs := reading_dumps ; l := replicate 5 0 ++ replicate 9 1 ++ [0] ; s := default (c_init []) (crun (c_init (program <$> cs)) l) | length (c_todo s) = 3 | split; [apply reading_dumps_read|split; vm_compute; reflexivity]
C57_race_exactly_partial | cs := safe_sets | ~ racy safe_sets /\ racy unsafe_sets | split; [apply safe_sets_safe|apply unsafe_sets_racy]
C57_every_clash_races_partial | cs := unsafe_sets ; t := 0 ; u := 1 ; c := KSetAdd 0 3 ; d := KSetGet 0 [1] | length unsafe_sets = 2 | split; [done|]; split; [eapply calls_in; [reflexivity|set_solver]|]; split; [eapply calls_in; [reflexivity|set_solver]|]; split; [exists (LSet 0), true, GRead, false, GRead; cbn; unfold rd, wt; split; [set_solver|]; split; [set_solver|]; split; [by left|]; by intros [[? _]|[? _]]|reflexivity]
C57_without_sets_partial | cs := no_sets ; l := replicate 9 0 ++ replicate 2 1 ; s := default (c_init []) (crun (c_init (program <$> cs)) l) | length (c_todo s) = 3 | split; [apply no_sets_no|split; vm_compute; reflexivity]
C57_two_requests_partial | cs := two_fill ; t := 0 ; u := 1 ; c := KRequest 0 [] [1] ; d := KSetIntersect 1 2 3 [] | length two_fill = 2 | split; [done|]; split; [eapply calls_in; [reflexivity|set_solver]|]; split; [eapply calls_in; [reflexivity|set_solver]|]; repeat split
C10_undefined_iff | q := QAnd (QLeaf LGreater "age" (VInt I32 18) (fun _ _ => true)) (QLeaf LLess "age" (VInt I64 40) (fun _ _ => true)) ; s := 12 | mixes ob q | ex
C32_roundtrip_iff | v := VInt I64 (-9223372036854775807) | from_string (vty v) (to_string v) = FsOk v | mx
C32_otherwise | v := VInt I64 (-9223372036854775808) | from_string (vty v) (to_string v) = FsUB | mx
C22_set_loses_iff_registered | b := false ; w := state false (sc ++ [OJoin 11 10]) ; p := OEraseRef 0 2 ; s := 11 | 2 ∈ o_recs sb /\ ~ valid_rec w' 2 | ex
C22_set_loses_iff_registered__filled | p := OEraseRef 0 0 ; s := 10 | 0 ∈ o_recs sb /\ ~ valid_rec w' 0 | ex
C21_set_follows_iff_registered | w := W ; k := "age" ; v := VInt I32 77 ; old := VInt I32 30 ; s := 10 | 0 ∈ o_recs sb | ex
C21_join_registers_nothing | w := W ; s := 11 ; a := 10 ; r := 0 ; x := 10 | o_recs (ob_at w' 11) <> o_recs (ob_at w 11) | ex
C21_subtract_keeps_registered | b := false ; w := state false sc ; s := 10 ; a := 11 ; p := OExclude 10 11 ; r := 0 ; x := 10 | out = ORes (okres Success "" None None) | ex; by left
C24_removal_keeps_registered | b := false ; w := state false sc ; s := 10 ; p := OEraseRef 10 0 ; r := 0 ; x := 10 | o_recs (ob_at w' 10) <> o_recs sb | ex
C24_removal_keeps_registered__by_value | b := false ; w := state false sc ; s := 10 ; p := OEraseRecords 10 "age" (VInt I32 30) None ; r := 0 ; x := 10 | o_recs (ob_at w' 10) <> o_recs sb | ex
C21_set_follows_iff_registered__joined | b := false ; w := state false (sc ++ [OJoin 11 10]) ; f := 2 ; r := 2 ; k := "age" ; v := VInt I32 77 ; old := VInt I32 40 ; s := 11 | 2 ∈ o_recs sb | ex
C21_intersection_registers_nothing | b := 11 ; w := W ; a := 10 ; res := 12 ; r := 0 ; x := 10 | o_recs (ob_at w' 12) <> ∅ | ex; eexists; (split; [vm_compute; reflexivity|split; [vm_compute; reflexivity|dec]])
C21_union_registers_first | w := W ; a := 10 ; ab := ob_at w 10 ; b := 11 ; res := 12 ; r := 2 ; x := 12 | ~ dependent w r x | ex; [eexists; (split; [vm_compute; reflexivity|split; [vm_compute; reflexivity|dec]])|intros (rc & Hrc & _ & Hx); assert (E : ((fun c => bool_decide (12 ∈ r_deps c)) <$> w_recs W !! 2) = Some false) by (vm_compute; reflexivity); rewrite Hrc in E; apply (inj Some) in E; apply bool_decide_eq_false in E; exact (E Hx)]
