(** Vocabulary of the theorems about JSON (C36): a parser for JSON, independent of the code. *)
From Coq Require Import Ascii.
From Verif Require Export JsonModel StringsSpec Spec.
Open Scope nat_scope.

Inductive json :=
  | JText (s : text)
  | JNumber (z : Z)
  | JBool (b : bool)
  | JNull
  | JArray (l : list json)
  | JObject (l : list (text * json)).

(** RFC 8259, with two restrictions: numbers are integers, and the escape \u is not known. What the parser accepts is JSON. *)
Definition is_ws (c : ascii) : bool := bool_decide (c ∈ [" "%char; "009"%char; LF; CR]).
Fixpoint skip_ws (s : text) : text := match s with c :: s' => if is_ws c then skip_ws s' else s | [] => [] end.
Definition escape (c : ascii) : option ascii :=
  match c with
  | """" => Some """"%char | "\" => Some "\"%char | "/" => Some "/"%char
  | "b" => Some "008"%char | "f" => Some "012"%char | "n" => Some "010"%char | "r" => Some "013"%char | "t" => Some "009"%char
  | _ => None
  end%char.
(** The rest of a text after the opening quote. *)
Fixpoint p_text (s : text) : option (text * text) :=
  match s with
  | [] => None
  | c :: s' =>
      if decide (c = quote) then Some ([], s')
      else if decide (c = "\"%char) then
        match s' with
        | e :: s'' => c' ← escape e; '(t, rest) ← p_text s''; Some (c' :: t, rest)
        | [] => None
        end
      else if decide (nat_of_ascii c < 32) then None
      else '(t, rest) ← p_text s'; Some (c :: t, rest)
  end.
Fixpoint p_digits (s : text) : list Z * text :=
  match s with
  | c :: s' => if is_digit c then let '(ds, rest) := p_digits s' in ((byte c - 48)%Z :: ds, rest) else ([], s)
  | [] => ([], [])
  end.
Definition p_natural (s : text) : option (Z * text) :=
  match p_digits s with
  | ([], _) => None
  | (0%Z :: _ :: _, _) => None
  | (ds, rest) => Some (number ds, rest)
  end.
Definition p_number (s : text) : option (Z * text) :=
  match s with
  | "-"%char :: s' => '(z, rest) ← p_natural s'; Some ((- z)%Z, rest)
  | _ => p_natural s
  end.
Fixpoint p_word (word s : text) : option text :=
  match word, s with
  | [], _ => Some s
  | c :: word', d :: s' => if decide (c = d) then p_word word' s' else None
  | _, [] => None
  end.
Fixpoint p_value (n : nat) (s : text) : option (json * text) :=
  match n with
  | O => None
  | S n =>
      match skip_ws s with
      | "{"%char :: s1 =>
          match skip_ws s1 with
          | "}"%char :: s2 => Some (JObject [], s2)
          | _ => '(l, rest) ← p_members n s1; Some (JObject l, rest)
          end
      | "["%char :: s1 =>
          match skip_ws s1 with
          | "]"%char :: s2 => Some (JArray [], s2)
          | _ => '(l, rest) ← p_elements n s1; Some (JArray l, rest)
          end
      | """"%char :: s1 => '(t, rest) ← p_text s1; Some (JText t, rest)
      | "t"%char :: s1 => rest ← p_word (tx "rue") s1; Some (JBool true, rest)
      | "f"%char :: s1 => rest ← p_word (tx "alse") s1; Some (JBool false, rest)
      | "n"%char :: s1 => rest ← p_word (tx "ull") s1; Some (JNull, rest)
      | s1 => '(z, rest) ← p_number s1; Some (JNumber z, rest)
      end
  end
with p_members (n : nat) (s : text) : option (list (text * json) * text) :=
  match n with
  | O => None
  | S n =>
      match skip_ws s with
      | """"%char :: s1 =>
          '(k, s2) ← p_text s1;
          match skip_ws s2 with
          | ":"%char :: s3 =>
              '(v, s4) ← p_value n s3;
              match skip_ws s4 with
              | ","%char :: s5 => '(l, rest) ← p_members n s5; Some ((k, v) :: l, rest)
              | "}"%char :: s5 => Some ([(k, v)], s5)
              | _ => None
              end
          | _ => None
          end
      | _ => None
      end
  end
with p_elements (n : nat) (s : text) : option (list json * text) :=
  match n with
  | O => None
  | S n =>
      '(v, s1) ← p_value n s;
      match skip_ws s1 with
      | ","%char :: s2 => '(l, rest) ← p_elements n s2; Some (v :: l, rest)
      | "]"%char :: s2 => Some ([v], s2)
      | _ => None
      end
  end.
(** The JSON value a text is; the depth of the recursion never exceeds twice the length of the text. *)
Definition parse_json (s : text) : option json :=
  '(j, rest) ← p_value (S (2 * length s)) s; match skip_ws rest with [] => Some j | _ => None end.

(** Texts that stand for themselves between quotes. *)
Definition plain_json (s : text) : Prop := Forall (fun c => c <> quote /\ c <> "\"%char /\ 32 <= nat_of_ascii c) s.
Definition plain_value (v : value) : Prop := match v with VStr s => plain_json (tx s) | _ => True end.
(** The JSON value of a stored value; types that cannot be printed appear as an empty text. *)
Definition json_of (v : value) : json :=
  match v with VInt _ z => JNumber z | VBool b => JBool b | VStr s => JText (tx s) | VOther _ _ => JText [] end.
(** The members of a record: the keys in their order, each with its value. *)
Definition json_record (w : world) (ks : list string) (r : nat) (l : list (text * json)) : Prop :=
  Forall2 (fun k (m : text * json) => exists v, stored w r k = Some v /\ m = (tx k, json_of v)) ks l.
Global Instance plain_json_dec s : Decision (plain_json s).
Proof. unfold plain_json. apply _. Defined.
Global Instance plain_value_dec v : Decision (plain_value v).
Proof. destruct v; apply _. Defined.
