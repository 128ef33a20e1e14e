(** Vocabulary of the theorems about DataSaver and the data containers (C50-C53): a DataSaver is a variable that holds a value of any type or nothing. *)
From Verif Require Export SaverModel.
Open Scope nat_scope.

(** The content every DataSaver should have after the operations [ps]. *)
Notation contents := (gmap loc (option value)).
Definition read_text (t : text) (v : value) : value := match from_string (vty v) t with FsOk v' => v' | _ => v end.
Definition content_step (m : contents) (p : dop) : contents :=
  match p with
  | DNew l => if decide (is_Some (m !! l)) then m else <[l := None]> m
  | DMake l v _ => if decide (is_Some (m !! l)) then m else <[l := Some v]> m
  | DCopy l o => if decide (is_Some (m !! l)) then m else match m !! o with Some c => <[l := c]> m | None => m end
  | DAssign l o => match m !! l, m !! o with Some _, Some c => <[l := c]> m | _, _ => m end
  | DSet l v _ => match m !! l with Some _ => <[l := Some v]> m | None => m end
  | DFromString l t => match m !! l with Some (Some v) => <[l := Some (read_text t v)]> m | _ => m end
  | DReset l => match m !! l with Some _ => <[l := None]> m | None => m end
  | DSwap l o => match m !! l, m !! o with Some c, Some c' => <[l := c']> (<[o := c]> m) | _, _ => m end
  | DDelete l => delete l m
  end.
Definition contents_after (ps : list dop) : contents := foldl content_step ∅ ps.

(** What a DataSaver answers if it holds [c]. *)
Definition answers (w : dworld) (l : loc) (c : option value) : Prop :=
  match c with
  | Some v => (forall t, saver_get l t w = Some (if decide (vty v = t) then Some v else None)) /\ saver_str l w = Some (to_string v) /\ saver_type l w = Some (Some (vty v))
  | None => forall t, saver_get l t w = Some None
  end.

(** The heap cell owned by a DataSaver. *)
Definition owns (w : dworld) (l : loc) (p : nat) : Prop := exists s, d_vars w !! l = Some s /\ sv_ptr s = Some p.

(** The operation ResetData of variable [l]. *)
Definition reset_of (p : dop) : option loc := match p with DReset l => Some l | _ => None end.

(** ** Containers *)
(** The contents of the nodes, oldest first, and of the variables. *)
Record store := Store { st_nodes : list (string * option value); st_vars : contents }.
(** The positions of the nodes with key [k], and the one chosen by [ch]. *)
Fixpoint positions_from (i : nat) (k : string) (ks : list string) : list nat :=
  match ks with [] => [] | x :: ks => if decide (x = k) then i :: positions_from (S i) k ks else positions_from (S i) k ks end.
Definition positions (k : string) (l : list (string * option value)) : list nat := positions_from 0 k l.*1.
Definition chosen (ch : nat) (k : string) (l : list (string * option value)) : option nat := positions k l !! (ch mod length (positions k l)).
Definition add_node (multi : bool) (k : string) (c : option value) (s : store) : store :=
  if negb multi && bool_decide (k ∈ (st_nodes s).*1) then s else Store (st_nodes s ++ [(k, c)]) (st_vars s).
Definition set_node (i : nat) (k : string) (c : option value) (s : store) : store := Store (<[i := (k, c)]> (st_nodes s)) (st_vars s).
Definition store_step (multi : bool) (s : store) (p : cop) : store :=
  match p with
  | CVar p => if user_op p then Store (st_nodes s) (content_step (st_vars s) p) else s
  | CAdd k v _ => add_node multi k (Some v) s
  | CAddSaver k x => match st_vars s !! (false, x) with Some c => add_node multi k c s | None => s end
  | CSet ch k v _ => match chosen ch k (st_nodes s) with Some i => set_node i k (Some v) s | None => add_node multi k (Some v) s end
  | CSetSaver ch k x => match st_vars s !! (false, x) with
                        | Some c => match chosen ch k (st_nodes s) with Some i => set_node i k c s | None => add_node multi k c s end
                        | None => s
                        end
  | CFromString ch k t => match chosen ch k (st_nodes s) with
                          | Some i => match st_nodes s !! i with Some (_, Some v) => set_node i k (Some (read_text t v)) s | _ => s end
                          | None => s
                          end
  | CGetSaver ch k x => match st_vars s !! (false, x), chosen ch k (st_nodes s) with
                        | Some _, Some i => match st_nodes s !! i with Some (_, c) => Store (st_nodes s) (<[(false, x) := c]> (st_vars s)) | None => s end
                        | _, _ => s
                        end
  | CErase ch k => match chosen ch k (st_nodes s) with Some i => Store (delete i (st_nodes s)) (st_vars s) | None => s end
  | CClear => Store [] (st_vars s)
  end.
Definition store_after (multi : bool) (ps : list cop) : store := foldl (store_step multi) (Store [] ∅) ps.

(** The same for the containers with unique keys, as a map from keys to contents. *)
Record mstore := MStore { ms_map : gmap string (option value); ms_vars : contents }.
Definition map_step (s : mstore) (p : cop) : mstore :=
  match p with
  | CVar p => if user_op p then MStore (ms_map s) (content_step (ms_vars s) p) else s
  | CAdd k v _ => if decide (is_Some (ms_map s !! k)) then s else MStore (<[k := Some v]> (ms_map s)) (ms_vars s)
  | CAddSaver k x => match ms_vars s !! (false, x) with
                     | Some c => if decide (is_Some (ms_map s !! k)) then s else MStore (<[k := c]> (ms_map s)) (ms_vars s)
                     | None => s
                     end
  | CSet _ k v _ => MStore (<[k := Some v]> (ms_map s)) (ms_vars s)
  | CSetSaver _ k x => match ms_vars s !! (false, x) with Some c => MStore (<[k := c]> (ms_map s)) (ms_vars s) | None => s end
  | CFromString _ k t => match ms_map s !! k with Some (Some v) => MStore (<[k := Some (read_text t v)]> (ms_map s)) (ms_vars s) | _ => s end
  | CGetSaver _ k x => match ms_vars s !! (false, x), ms_map s !! k with Some _, Some c => MStore (ms_map s) (<[(false, x) := c]> (ms_vars s)) | _, _ => s end
  | CErase _ k => MStore (delete k (ms_map s)) (ms_vars s)
  | CClear => MStore ∅ (ms_vars s)
  end.
Definition map_after (ps : list cop) : mstore := foldl map_step (MStore ∅ ∅) ps.
(** The value GetData writes for a request of type [t]. *)
Definition typed_value (t : vtype) (c : option value) : option value := v ← c; if decide (vty v = t) then Some v else None.
(** Reading text into [c] is undefined: there is no value, or the number overflows its parser (C33). *)
Definition unreadable (t : text) (c : option value) : Prop := c = None \/ exists v, c = Some v /\ from_string (vty v) t = FsUB.
Definition undefined_op (s : store) (p : cop) : Prop :=
  match p with
  | CVar (DFromString (false, x) t) => exists c, st_vars s !! (false, x) = Some c /\ unreadable t c
  | CFromString ch k t => exists i c, chosen ch k (st_nodes s) = Some i /\ st_nodes s !! i = Some (k, c) /\ unreadable t c
  | _ => False
  end.
(** The Boolean an operation returns: whether the text was read, and whether the key was found. *)
Definition readable (t : text) (c : option value) : bool := match c with Some v => match from_string (vty v) t with FsOk _ => true | _ => false end | None => false end.
Definition reported (s : store) (p : cop) : option bool :=
  match p with
  | CVar (DFromString (false, x) t) => c ← st_vars s !! (false, x); Some (readable t c)
  | CFromString ch k t => Some (match chosen ch k (st_nodes s) with Some i => match st_nodes s !! i with Some (_, c) => readable t c | None => false end | None => false end)
  | CGetSaver ch k x => _ ← st_vars s !! (false, x); Some (bool_decide (k ∈ (st_nodes s).*1))
  | _ => None
  end.
(** The content of the node found. *)
Definition found (ch : nat) (k : string) (s : store) : option (option value) := i ← chosen ch k (st_nodes s); snd <$> st_nodes s !! i.
Definition contents_under (k : string) (s : store) : list (option value) := snd <$> filter (fun e => e.1 = k) (st_nodes s).
