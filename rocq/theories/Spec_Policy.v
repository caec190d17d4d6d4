(** Vocabulary for the statements about name assignment, redirection and PROBE replies. *)
From Verif Require Export Spec_Ca.
Local Open Scope N_scope.

(** [l] joined with [c] between the pieces. *)
Fixpoint join (c : byte) (l : list bytes) : bytes :=
  match l with
  | [] => []
  | x :: l' => match l' with [] => x | _ :: _ => x ++ c :: join c l' end
  end.
Definition free (c : byte) (s : bytes) : Prop := ~ In c s.

(** ** Name assignment *)
Definition first_value (params : mmap) (k v : bytes) : Prop :=
  exists a b, params = a ++ (k, v) :: b /\ ~ In k (map fst a).
Definition literal (item lit : bytes) : Prop := item = [x22] ++ lit ++ [x22].

(** The text an item of a "param" format stands for. *)
Inductive item_text (params : mmap) (item : bytes) : bytes -> Prop :=
| text_literal : forall lit, literal item lit -> item_text params item lit
| text_value : forall v, (forall lit, ~ literal item lit) -> first_value params item v -> v <> [] ->
    item_text params item v.
(** The name a "param" format gives: each text is read as a URI. *)
Inductive param_name (E : env) (params : mmap) : list bytes -> name -> Prop :=
| pn_nil : param_name E params [] []
| pn_item : forall item text n fmt m, item_text params item text -> o_of_uri E text = Some n ->
    param_name E params fmt m -> param_name E params (item :: fmt) (n ++ m).
(** Some item has no text (and no earlier one throws). *)
Inductive param_missing (E : env) (params : mmap) : list bytes -> Prop :=
| pm_here : forall item fmt, (forall text, ~ item_text params item text) -> param_missing E params (item :: fmt)
| pm_later : forall item text n fmt, item_text params item text -> o_of_uri E text = Some n ->
    param_missing E params fmt -> param_missing E params (item :: fmt).
(** Some item's text is not a URI (and no earlier one is missing). *)
Inductive param_throws (E : env) (params : mmap) : list bytes -> Prop :=
| pt_here : forall item text fmt, item_text params item text -> o_of_uri E text = None -> param_throws E params (item :: fmt)
| pt_later : forall item text n fmt, item_text params item text -> o_of_uri E text = Some n ->
    param_throws E params fmt -> param_throws E params (item :: fmt).

(** The name a "hash" format gives. *)
Definition hash_name (E : env) (params : mmap) (fmt : list bytes) (n : name) : Prop :=
  Forall2 (fun k c => exists v, first_value params k v /\ c = gc (to_hex (o_sha256 E v))) fmt n.

(** Domain labels from right to left without those that match the next item of the format. *)
Inductive kept : list bytes -> list bytes -> list bytes -> Prop :=
| kept_nil : forall fmt, kept [] fmt []
| kept_drop : forall l ls fmt ks, kept ls fmt ks -> kept (l :: ls) (l :: fmt) ks
| kept_keep : forall l ls fmt ks, hd_error fmt <> Some l -> kept ls fmt ks -> kept (l :: ls) fmt (l :: ks).
(** The name for an email address; a component ends at a NUL. *)
Definition email_name (fmt : list bytes) (addr : bytes) (n : name) : Prop :=
  exists loc labels ks, addr = loc ++ ["@"%byte] ++ join "."%byte labels /\ loc <> [] /\ labels <> [] /\
    free "@"%byte (join "."%byte labels) /\ Forall (free "."%byte) labels /\ kept (rev labels) fmt ks /\
    n = map (fun b => gc (cstr b)) (ks ++ [loc]).

(** ** Redirection *)
Definition redirects_to (p : policy) (params : mmap) : Prop :=
  match p with
  | PParam pairs => forall k v, In (k, v) pairs -> In (k, v) params
  | PEmail dom => free "@"%byte dom /\ exists loc, In (bs "email", loc ++ ["@"%byte] ++ dom) params
  end.

(** ** PROBE *)
(** The full names of the redirection targets whose policy matches, in order. *)
Inductive targets (E : env) (params : mmap) : list (option cert * policy) -> list name -> Prop :=
| tg_nil : targets E params [] []
| tg_hit : forall c p l ns, redirects_to p params -> targets E params l ns ->
    targets E params ((Some c, p) :: l) (full_name E c :: ns)
| tg_miss : forall oc p l ns, ~ redirects_to p params -> targets E params l ns -> targets E params ((oc, p) :: l) ns.
(** The suffixes one assignment function offers; [w]: its random word. *)
Inductive offers1 (E : env) (params : mmap) (w : N) : assign -> list name -> Prop :=
| of_param : forall fmt n, param_name E params fmt n -> offers1 E params w (Assign AParam fmt) [n]
| of_param_none : forall fmt, param_missing E params fmt -> offers1 E params w (Assign AParam fmt) []
| of_hash : forall fmt n, hash_name E params fmt n -> offers1 E params w (Assign AHash fmt) [n]
| of_hash_none : forall fmt, (forall n, ~ hash_name E params fmt n) -> offers1 E params w (Assign AHash fmt) []
| of_email : forall fmt k addr rest n, fmt <> [] -> params = (k, addr) :: rest -> In (bs "email") (map fst params) ->
    email_name fmt addr n -> offers1 E params w (Assign AEmail fmt) [n]
| of_email_none : forall fmt, (forall k addr rest n, fmt <> [] -> params = (k, addr) :: rest ->
    In (bs "email") (map fst params) -> ~ email_name fmt addr n) -> offers1 E params w (Assign AEmail fmt) []
| of_random : forall fmt, offers1 E params w (Assign ARandom fmt) [[gc (to_string_N (w mod 2 ^ 64))]].
(** The suffixes of all functions, in order; each random function uses up one word. *)
Inductive offers (E : env) (params : mmap) : list assign -> list N -> list name -> Prop :=
| of_nil : forall ws, offers E params [] ws []
| of_cons_random : forall a l ws ns ms, a_kind a = ARandom -> offers1 E params (hd 0 ws) a ns -> offers E params l (tl ws) ms ->
    offers E params (a :: l) ws (ns ++ ms)
| of_cons : forall a l ws ns ms, a_kind a <> ARandom -> offers1 E params 0 a ns -> offers E params l ws ms ->
    offers E params (a :: l) ws (ns ++ ms).
