(** DataSaver (a value of any type) with its heap cells, and the containers of DataSavers.
    Source/DataSaver.h, Source/DataSaver.cpp, Source/DataContainer.h. *)
From Verif Require Export StringsModel.
From Coq Require Import Ascii.
Open Scope nat_scope.
Notation UB := None (only parsing).

(** Source/DataSaver.h 24-42. Simplification: the five function pointers set by SetData<T> are instances of one lambda per type, so each is represented by its type;
    [None] is nullptr (or typeid(void)). [sv_cust] names a user function. *)
Record saver := Saver {
  sv_ptr : option nat; sv_type : option vtype;
  sv_copy : option vtype; sv_del : option vtype; sv_str : option vtype; sv_cust : option nat; sv_from : option vtype
}.
(** Source/DataSaver.cpp 5. *)
Definition empty_saver : saver := Saver None None None None None None None.

(** Where a DataSaver lives: [(false, x)] is a variable of the program, [(true, n)] a node of a container. *)
Definition loc : Type := bool * nat.
(** The heap cells made by DataSavers, the next address, all live DataSavers, and the calls of custom delete functions so far
    (the function and the value its argument points to; [None] if the argument is nullptr). *)
Record dworld := DWorld { d_cells : gmap nat value; d_next : nat; d_vars : gmap loc saver; d_calls : list (nat * option value) }.
Definition d_init : dworld := DWorld ∅ 0 ∅ [].

(** [new T(data)]: Source/DataSaver.h 146, 157. *)
Definition d_alloc (v : value) (w : dworld) : dworld * nat :=
  (DWorld (<[d_next w := v]> (d_cells w)) (S (d_next w)) (d_vars w) (d_calls w), d_next w).
(** A cell read as a T; a null, dangling or differently typed pointer is undefined. *)
Definition d_read (t : option vtype) (p : option nat) (w : dworld) : option value :=
  t ← t; p ← p; v ← d_cells w !! p; if decide (vty v = t) then Some v else UB.
(** [DeleteFunc(Ptr)]: Source/DataSaver.h 161-164. *)
Definition d_free (t : option vtype) (p : option nat) (w : dworld) : option dworld :=
  _ ← d_read t p w; p ← p; Some (DWorld (delete p (d_cells w)) (d_next w) (d_vars w) (d_calls w)).
(** [if (Ptr != nullptr) DeleteFunc(Ptr);]: Source/DataSaver.h 142-143, DataSaver.cpp 19-20, 99-100. *)
Definition d_drop (s : saver) (w : dworld) : option dworld := match sv_ptr s with None => Some w | Some p => d_free (sv_del s) (Some p) w end.
Definition d_put (l : loc) (s : saver) (w : dworld) : dworld := DWorld (d_cells w) (d_next w) (<[l := s]> (d_vars w)) (d_calls w).

(** SetData(data, customDeleteFunc): Source/DataSaver.h 139-180. *)
Definition saver_set (l : loc) (v : value) (c : option nat) (w : dworld) : option dworld :=
  s ← d_vars w !! l;
  w ← d_drop s w;
  let '(w, p) := d_alloc v w in
  let t := Some (vty v) in
  Some (d_put l (Saver (Some p) t t t t c t) w).
(** operator=: Source/DataSaver.cpp 13-53. *)
Definition saver_assign (l m : loc) (w : dworld) : option dworld :=
  if decide (l = m) then Some w
  else
    s ← d_vars w !! l; o ← d_vars w !! m;
    w ← d_drop s w;
    match sv_ptr o with
    | Some _ =>
        v ← d_read (sv_copy o) (sv_ptr o) w;
        let '(w, p) := d_alloc v w in
        Some (d_put l (Saver (Some p) (sv_type o) (sv_copy o) (sv_del o) (sv_str o) (sv_cust o) (sv_from o)) w)
    | None => Some (d_put l (Saver None (sv_type s) (sv_copy s) (sv_del s) (sv_str s) (sv_cust s) (sv_from s)) w)
    end.
(** Constructors: Source/DataSaver.cpp 5 (empty), 7-11 (copy); Source/DataSaver.h 66-70, 86-90 (from data). *)
Definition saver_new (l : loc) (w : dworld) : dworld := d_put l empty_saver w.
Definition saver_copy (l m : loc) (w : dworld) : option dworld := saver_assign l m (d_put l empty_saver w).
Definition saver_make (l : loc) (v : value) (c : option nat) (w : dworld) : option dworld := saver_set l v c (d_put l empty_saver w).
(** Destructor: Source/DataSaver.cpp 97-101. *)
Definition saver_delete (l : loc) (w : dworld) : option dworld :=
  s ← d_vars w !! l; w ← d_drop s w; Some (DWorld (d_cells w) (d_next w) (delete l (d_vars w)) (d_calls w)).
(** ResetData: Source/DataSaver.cpp 60-78. DeleteFunc keeps its value. *)
Definition saver_reset (l : loc) (w : dworld) : option dworld :=
  s ← d_vars w !! l;
  let calls := match sv_cust s with Some c => d_calls w ++ [(c, p ← sv_ptr s; d_cells w !! p)] | None => d_calls w end in
  w ← d_drop s w;
  Some (d_put l (Saver None None None (sv_del s) None None None) (DWorld (d_cells w) (d_next w) (d_vars w) calls)).
(** SetDataFromString: Source/DataSaver.cpp 55-58, DataSaver.h 175-178. *)
Definition saver_from_string (l : loc) (t : text) (w : dworld) : option (dworld * bool) :=
  s ← d_vars w !! l;
  v ← d_read (sv_from s) (sv_ptr s) w;
  p ← sv_ptr s;
  match from_string (vty v) t with
  | FsOk v' => Some (DWorld (<[p := v']> (d_cells w)) (d_next w) (d_vars w) (d_calls w), true)
  | FsFail => Some (w, false)
  | FsUB => UB
  end.
(** Swap: Source/DataSaver.cpp 80-85; [tmp] is a variable that does not exist before. *)
Definition saver_swap (l m tmp : loc) (w : dworld) : option dworld :=
  w ← saver_copy tmp m w; w ← saver_assign m l w; w ← saver_assign l tmp w; saver_delete tmp w.

(** GetData: Source/DataSaver.h 193-209; the answer is the value written, if any. *)
Definition saver_get (l : loc) (t : vtype) (w : dworld) : option (option value) :=
  s ← d_vars w !! l;
  if decide (sv_type s <> Some t) then Some None
  else match sv_ptr s with None => Some None | Some p => v ← d_read (Some t) (Some p) w; Some (Some v) end.
(** Str: Source/DataSaver.cpp 87-90, DataSaver.h 167-170; GetDataType: DataSaver.cpp 92-95. *)
Definition saver_str (l : loc) (w : dworld) : option text := s ← d_vars w !! l; v ← d_read (sv_str s) (sv_ptr s) w; Some (to_string v).
Definition saver_type (l : loc) (w : dworld) : option (option vtype) := s ← d_vars w !! l; Some (sv_type s).

(** Programs. An operation on variables that do not exist (or, for constructors, do) is skipped. *)
Inductive dop :=
  | DNew (l : loc) | DMake (l : loc) (v : value) (c : option nat) | DCopy (l m : loc) | DAssign (l m : loc) | DSet (l : loc) (v : value) (c : option nat)
  | DFromString (l : loc) (t : text) | DReset (l : loc) | DSwap (l m : loc) | DDelete (l : loc).
Definition lives (w : dworld) (l : loc) : bool := bool_decide (is_Some (d_vars w !! l)).
Definition dskip (b : bool) (w : dworld) (m : option dworld) : option (dworld * option bool) := if b then w ← m; Some (w, None) else Some (w, None).
Definition dstep (w : dworld) (p : dop) : option (dworld * option bool) :=
  match p with
  | DNew l => dskip (negb (lives w l)) w (Some (saver_new l w))
  | DMake l v c => dskip (negb (lives w l)) w (saver_make l v c w)
  | DCopy l m => dskip (negb (lives w l) && lives w m) w (saver_copy l m w)
  | DAssign l m => dskip (lives w l && lives w m) w (saver_assign l m w)
  | DSet l v c => dskip (lives w l) w (saver_set l v c w)
  | DFromString l t => if lives w l then '(w, b) ← saver_from_string l t w; Some (w, Some b) else Some (w, None)
  | DReset l => dskip (lives w l) w (saver_reset l w)
  | DSwap l m => dskip (lives w l && lives w m) w (saver_swap l m (fresh (dom (d_vars w))) w)
  | DDelete l => dskip (lives w l) w (saver_delete l w)
  end.
Fixpoint drun (w : dworld) (ps : list dop) : option dworld :=
  match ps with [] => Some w | p :: ps => '(w, _) ← dstep w p; drun w ps end.

(** ** Containers: Source/DataContainer.h *)
(** A container: its nodes in the order of insertion, and whether it is a multimap (DataMultiHashMap, DataMultiMap) or a map (DataHashMap, DataMap).
    Simplification: the order of iteration of the standard containers is not modelled. *)
Record cworld := CWorld { c_d : dworld; c_nodes : list (string * nat); c_node : nat }.
Definition with_d (d : dworld) (w : cworld) : cworld := CWorld d (c_nodes w) (c_node w).
(** [Container.find(key)]: of several nodes with the key any one, chosen by [ch]. *)
Definition c_find (ch : nat) (k : string) (w : cworld) : option nat :=
  let l := snd <$> filter (fun e => e.1 = k) (c_nodes w) in l !! (ch mod (length l)).
(** [Container.emplace(key, dataSaver)]: a node holding a copy is built, and destroyed again if a map has the key: 91-94, 64, 82. *)
Definition c_emplace (multi : bool) (k : string) (m : loc) (w : cworld) : option cworld :=
  let n := c_node w in
  d ← saver_copy (true, n) m (c_d w);
  if negb multi && bool_decide (k ∈ (c_nodes w).*1) then
    d ← saver_delete (true, n) d; Some (CWorld d (c_nodes w) (S n))
  else Some (CWorld d (c_nodes w ++ [(k, n)]) (S n)).
(** AddData: 61-83. The temporary DataSaver lives in a node address of its own. *)
Definition c_add (multi : bool) (k : string) (v : value) (c : option nat) (w : cworld) : option cworld :=
  let t := (true, c_node w) in
  d ← saver_make t v c (c_d w);
  w ← c_emplace multi k t (CWorld d (c_nodes w) (S (c_node w)));
  d ← saver_delete t (c_d w);
  Some (with_d d w).
(** SetData: 105-135. *)
Definition c_set (multi : bool) (ch : nat) (k : string) (v : value) (c : option nat) (w : cworld) : option cworld :=
  match c_find ch k w with
  | None => c_add multi k v c w
  | Some n => d ← saver_set (true, n) v c (c_d w); Some (with_d d w)
  end.
(** SetDataFromDataSaver: 144-154. *)
Definition c_set_saver (multi : bool) (ch : nat) (k : string) (m : loc) (w : cworld) : option cworld :=
  match c_find ch k w with
  | None => c_emplace multi k m w
  | Some n => d ← saver_assign (true, n) m (c_d w); Some (with_d d w)
  end.
(** SetDataFromString: 164-174. *)
Definition c_from_string (ch : nat) (k : string) (t : text) (w : cworld) : option (cworld * bool) :=
  match c_find ch k w with
  | None => Some (w, false)
  | Some n => '(d, b) ← saver_from_string (true, n) t (c_d w); Some (with_d d w, b)
  end.
(** GetData: 187-196; the answer is whether the key was found, and the value written, if any. *)
Definition c_get (ch : nat) (k : string) (t : vtype) (w : cworld) : option (bool * option value) :=
  match c_find ch k w with None => Some (false, None) | Some n => r ← saver_get (true, n) t (c_d w); Some (true, r) end.
(** GetDataSaver: 207-215. *)
Definition c_get_saver (ch : nat) (k : string) (l : loc) (w : cworld) : option (cworld * bool) :=
  match c_find ch k w with None => Some (w, false) | Some n => d ← saver_assign l (true, n) (c_d w); Some (with_d d w, true) end.
(** GetDataAsString: 226-234. *)
Definition c_str (ch : nat) (k : string) (w : cworld) : option (option text) :=
  match c_find ch k w with None => Some None | Some n => t ← saver_str (true, n) (c_d w); Some (Some t) end.
(** IsData: 243-246; Size: 280-283; GetAllData: 304-307, 328-331 (the values of the nodes with the key). *)
Definition c_is (k : string) (w : cworld) : bool := bool_decide (k ∈ (c_nodes w).*1).
Definition c_size (w : cworld) : nat := length (c_nodes w).
Definition c_all (k : string) (w : cworld) : list nat := snd <$> filter (fun e => e.1 = k) (c_nodes w).
(** EraseData: 255-263. *)
Definition c_erase (ch : nat) (k : string) (w : cworld) : option cworld :=
  match c_find ch k w with
  | None => Some w
  | Some n => d ← saver_reset (true, n) (c_d w); d ← saver_delete (true, n) d; Some (CWorld d (filter (fun e => e.2 <> n) (c_nodes w)) (c_node w))
  end.
(** Clear: 270-273, and the destructor of the container. *)
Fixpoint delete_nodes (ns : list nat) (d : dworld) : option dworld := match ns with [] => Some d | n :: ns => d ← saver_delete (true, n) d; delete_nodes ns d end.
Definition c_clear (w : cworld) : option cworld := d ← delete_nodes (c_nodes w).*2 (c_d w); Some (CWorld d [] (c_node w)).

(** Programs with one container and any number of DataSaver variables. *)
Inductive cop :=
  | CVar (p : dop)
  | CAdd (k : string) (v : value) (c : option nat) | CAddSaver (k : string) (x : nat)
  | CSet (ch : nat) (k : string) (v : value) (c : option nat) | CSetSaver (ch : nat) (k : string) (x : nat)
  | CFromString (ch : nat) (k : string) (t : text) | CGetSaver (ch : nat) (k : string) (x : nat)
  | CErase (ch : nat) (k : string) | CClear.
(** The operation names variables of the program only. *)
Definition user_op (p : dop) : bool :=
  match p with
  | DNew l | DMake l _ _ | DSet l _ _ | DFromString l _ | DReset l | DDelete l => negb l.1
  | DCopy l m | DAssign l m | DSwap l m => negb l.1 && negb m.1
  end.
Definition cunit (m : option cworld) : option (cworld * option bool) := w ← m; Some (w, None).
Definition cstep (multi : bool) (w : cworld) (p : cop) : option (cworld * option bool) :=
  match p with
  | CVar p => if user_op p then '(d, b) ← dstep (c_d w) p; Some (with_d d w, b) else Some (w, None)
  | CAdd k v c => cunit (c_add multi k v c w)
  | CAddSaver k x => if lives (c_d w) (false, x) then cunit (c_emplace multi k (false, x) w) else Some (w, None)
  | CSet ch k v c => cunit (c_set multi ch k v c w)
  | CSetSaver ch k x => if lives (c_d w) (false, x) then cunit (c_set_saver multi ch k (false, x) w) else Some (w, None)
  | CFromString ch k t => '(w, b) ← c_from_string ch k t w; Some (w, Some b)
  | CGetSaver ch k x => if lives (c_d w) (false, x) then '(w, b) ← c_get_saver ch k (false, x) w; Some (w, Some b) else Some (w, None)
  | CErase ch k => cunit (c_erase ch k w)
  | CClear => cunit (c_clear w)
  end.
Definition c_init : cworld := CWorld d_init [] 0.
Fixpoint crun (multi : bool) (w : cworld) (ps : list cop) : option cworld :=
  match ps with [] => Some w | p :: ps => '(w, _) ← cstep multi w p; crun multi w ps end.
