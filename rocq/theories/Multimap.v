(** [std::multimap<std::string, std::string>] (libstdc++): the list of its elements in iteration
    order, i.e. sorted by key, equal keys in insertion order. *)
From Verif Require Export Bytes.

Definition mmap : Type := list (bytes * bytes).

(** [emplace] / [insert]: at the upper bound of the range of equal keys. *)
Fixpoint mm_insert (k v : bytes) (m : mmap) : mmap :=
  match m with
  | [] => [(k, v)]
  | (k', v') :: m' => if bytes_ltb k k' then (k, v) :: (k', v') :: m' else (k', v') :: mm_insert k v m'
  end.

(** [find]: the first element with that key. *)
Fixpoint mm_find (k : bytes) (m : mmap) : option bytes :=
  match m with
  | [] => None
  | (k', v') :: m' => if bytes_eqb k k' then Some v' else mm_find k m'
  end.

(** [equal_range]: all values with that key, in order. *)
Fixpoint mm_all (k : bytes) (m : mmap) : list bytes :=
  match m with
  | [] => []
  | (k', v') :: m' => if bytes_eqb k k' then v' :: mm_all k m' else mm_all k m'
  end.

(** The lists that are the iteration of some multimap: sorted by key. *)
Fixpoint mm_sorted (m : mmap) : Prop :=
  match m with
  | [] => True
  | (k, _) :: m' =>
      match m' with
      | [] => True
      | (k', _) :: _ => bytes_ltb k' k = false
      end /\ mm_sorted m'
  end.

(** A multimap built by inserting a list of pairs into an empty one. *)
Definition mm_of (l : list (bytes * bytes)) : mmap :=
  fold_left (fun m kv => mm_insert (fst kv) (snd kv) m) l [].
