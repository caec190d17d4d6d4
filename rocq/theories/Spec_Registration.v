(** Vocabulary for the statements about the registration of a server's prefix. *)
From Verif Require Export Spec_Process Registration.
Local Open Scope N_scope.

(** One event: the state before, what is handed out, the state after. *)
Record gstep (S : Type) : Type := GStep { g_pre : reg * proc S; g_ev : revent; g_outs : list out; g_post : reg * proc S }.
Arguments GStep {S}. Arguments g_pre {S}. Arguments g_ev {S}. Arguments g_outs {S}. Arguments g_post {S}.
Inductive gsteps {S} (E : env) (g : ca_cfg) (ops : store_ops S) (repo : bool) : reg * proc S -> list (gstep S) -> reg * proc S -> Prop :=
| gsteps_nil : forall s, gsteps E g ops repo s [] s
| gsteps_cons : forall s ev os s1 tr s2, rstep E g ops repo s ev = Some (s1, os) -> gsteps E g ops repo s1 tr s2 ->
    gsteps E g ops repo s (GStep s ev os s1 :: tr) s2.
(** Everything that happens to a server that has to register its prefix. *)
Record reg_history {S} (E : env) (g : ca_cfg) (ops : store_ops S) (repo : bool) (tr : list (gstep S)) (s : reg * proc S) : Prop := {
  gh_codec : codec_laws E;
  gh_prefix : name_fits (p_prefix (cfp g));
  gh_store : back_end E S ops;
  gh_steps : gsteps E g ops repo (Waiting, Down (s_empty ops)) tr s
}.
(** The program is not started again in these events. *)
Definition no_start {S} (tr : list (gstep S)) : Prop := Forall (fun st => forall key i, g_ev st <> RvEvent (PvStart key i)) tr.
(** The same life without registration: Interests that come while the module has no filters have not come, and a kill while one is handled is a stop. *)
Inductive heard {S} : list (gstep S) -> list (sstep S) -> Prop :=
| hd_nil : heard [] []
| hd_same : forall r p ev os r' p' a b, heard a b -> heard (GStep (r, p) (RvEvent ev) os (r', p') :: a) (SStep p ev os p' :: b)
| hd_answer : forall r p ok os r' a b, heard a b -> heard (GStep (r, p) (RvAnswer ok) os (r', p) :: a) b
| hd_unheard : forall r p i x os r' a b, r <> Registered -> module_packets os = [] -> heard a b -> heard (GStep (r, p) (RvEvent (PvInterest i x)) os (r', p) :: a) b
| hd_killed : forall r p i x n os r' st a b, r <> Registered -> module_packets os = [] -> heard a b ->
    heard (GStep (r, p) (RvEvent (PvKill i x n)) os (r', Down st) :: a) (SStep p PvStop [] (Down st) :: b).
