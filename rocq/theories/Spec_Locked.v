(** Vocabulary of C119: histories of a CA whose database cannot always be used. *)
From Verif Require Export Locked Spec_Trace.
Local Open Scope N_scope.

Record wrec (S : Type) : Type := WRec { w_pre : ca_state S; w_ev : wevent; w_effs : list eff; w_post : ca_state S }.
Arguments WRec {S}. Arguments w_pre {S}. Arguments w_ev {S}. Arguments w_effs {S}. Arguments w_post {S}.
Inductive wsteps {S} (E : env) (g : ca_cfg) (ops : store_ops S) : ca_state S -> list (wrec S) -> ca_state S -> Prop :=
| ws_nil : forall s, wsteps E g ops s [] s
| ws_cons : forall s w es s1 tr s2, wstep E g ops s w = Some (s1, es) -> wsteps E g ops s1 tr s2 -> wsteps E g ops s (WRec s w es s1 :: tr) s2.
(** A history of a CA with SQLite storage, from its first start to state [s]. *)
Record locked_history (E : env) (g : ca_cfg) (tr : list (wrec db)) (s : ca_state db) : Prop := {
  lh_codec : codec_laws E;
  lh_prefix : name_fits (p_prefix (cfp g));
  lh_steps : exists key, wsteps E g (db_ops E) (ca_init (db_ops E) key) tr s
}.
(** The same event with a database that can be written. *)
Definition unlocked (w : wevent) : event :=
  match w with WFine ev => ev | WLocked _ i x => EvInterest i x | WLockedCrash _ i x n key => EvCrash i x n key end.
Definition is_locked (w : wevent) : Prop := match w with WFine _ => False | WLocked _ _ _ | WLockedCrash _ _ _ _ _ => True end.
(** The second history is the first with some of the locked events left out, or reduced to a restart. *)
Inductive thins {S} : list (wrec S) -> list (hstep S) -> Prop :=
| th_nil : thins [] []
| th_keep : forall w a b, thins a b -> thins (w :: a) (HStep (w_pre w) (unlocked (w_ev w)) (w_effs w) (w_post w) :: b)
| th_restart : forall w a b key, is_locked (w_ev w) -> thins a b -> thins (w :: a) (HStep (w_pre w) (EvRestart key) [] (w_post w) :: b)
| th_drop : forall w a b, is_locked (w_ev w) -> w_post w = w_pre w -> thins a b -> thins (w :: a) b.
(** The Interest an event handles. *)
Definition w_handles {S} (st : wrec S) (i : inputs) (x : interest) : Prop :=
  unlocked (w_ev st) = EvInterest i x \/ exists n key, unlocked (w_ev st) = EvCrash i x n key.
Definition w_adds {S} (id : bytes) (st : wrec S) : Prop := exists r, In (EAdd r) (w_effs st) /\ rq_id r = id.
Definition is_mail (e : eff) : Prop := exists cmd, e = EEmail cmd.
