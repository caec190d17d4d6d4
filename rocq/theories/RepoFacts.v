(** A server with a repo that may be out of reach. *)
From Verif Require Import ServerFacts ProcessFacts.
From Verif Require Export Spec_Repo.
From Coq Require Import Lia.
Local Open Scope N_scope.

Lemma contents_app : forall a b, repo_contents (a ++ b) = repo_contents a ++ repo_contents b.
Proof.
  assert (G : forall h c0, fold_left (fun contents e => write_to_repo (snd e) (fst e) contents) h c0 = c0 ++ repo_contents h).
  { intros h. unfold repo_contents. induction h as [|[os up] h IH]; intros c0; [symmetry; apply app_nil_r|]. cbn [fold_left fst snd]. rewrite IH. symmetry. rewrite IH. unfold write_to_repo. destruct up; [|reflexivity].
    cbn [app]. rewrite <- app_assoc. reflexivity. }
  intros a b. unfold repo_contents at 1. rewrite fold_left_app. apply G.
Qed.
Lemma contents_iff : forall h o, In o (repo_contents h) <-> exists os, In (os, true) h /\ In o os /\ is_write o = true.
Proof.
  induction h as [|[os up] h IH]; intros o; [split; [intros []|intros (os & [] & _)]|].
  change ((os, up) :: h) with ([(os, up)] ++ h). rewrite contents_app, in_app_iff, IH. unfold repo_contents. cbn [fold_left fst snd]. unfold write_to_repo. split.
  - intros [H|(os' & H & R)]; [|exists os'; split; [right; exact H|exact R]]. destruct up; [|destruct H]. cbn [app] in H. apply filter_In in H as [H1 H2]. exists os. split; [left; reflexivity|auto].
  - intros (os' & [H|H] & O & W); [|right; eauto]. injection H as -> ->. left. cbn [app]. apply filter_In. auto.
Qed.

(** An event writes to the repo once at most. *)
Lemma writes_published : forall E g repo d cache x es, filter is_write (filter_outs E g repo d cache x ++ effect_outs repo es) = map ORepoCert (published (effect_outs repo es)).
Proof.
  intros E g repo d cache x es. rewrite filter_app. replace (filter is_write (filter_outs E g repo d cache x)) with (@nil out).
  2:{ unfold filter_outs. destruct repo; [reflexivity|]. destruct (is_prefix _ _); [|reflexivity]. destruct (serve E d cache (i_name x)); reflexivity. }
  cbn [app]. induction es as [|e es IH]; [reflexivity|]. unfold effect_outs in *. cbn [flat_map]. rewrite filter_app, published_app, map_app, IH. f_equal. destruct e; try reflexivity. destruct (_ && _); reflexivity.
Qed.
Lemma shape_once : forall es, shape es -> forall n, (length (repo_writes (EvRestart [], firstn n es)) <= 1)%nat.
Proof.
  intros es SH n. destruct SH as [c id d r T RC|c id|es F].
  - unfold repo_writes. cbn [snd]. do 5 (destruct n as [|n]; [cbn; try lia; destruct (_ && _); cbn; lia|]). cbn. destruct (_ && _); cbn; lia.
  - unfold repo_writes. cbn [snd]. do 3 (destruct n as [|n]; [cbn; lia|]). cbn. lia.
  - assert (F' : Forall boring (firstn n es)) by (apply Forall_forall; intros e I; rewrite Forall_forall in F; apply F; rewrite <- (firstn_skipn n es); apply in_or_app; left; exact I).
    destruct (boring_facts _ F') as [_ Q]. unfold repo_writes. cbn [snd]. unfold to_cache in Q. rewrite Q. cbn. lia.
Qed.
Theorem writes_once : forall E g S (ops : store_ops S) repo tr p st, server_history E g ops repo tr p -> In st tr -> (length (filter is_write (p_outs st)) <= 1)%nat.
Proof.
  intros E g S ops repo tr p st H I. apply in_split in I as (a & b & ->). destruct H as [LC NF B H]. apply psteps_app in H as (m & H1 & H2). inversion H2 as [|? ev os p1 ? ? ST H3]; subst. cbn [p_outs].
  assert (HM : server_history E g ops repo a m) by (constructor; assumption). destruct m as [st0|ca d cache].
  - destruct ev as [key i|i x|i x n|]; try discriminate ST. cbn [pstep] in ST. destruct (on_get_profile _ _ _ _) as [es [dd| | |]]; try discriminate; injection ST as <- <-; [|cbn; lia]. destruct repo; cbn; lia.
  - destruct (running_at _ _ _ _ _ _ _ _ _ HM) as [AT _].
    assert (G : forall es o i x n, on_interest E g ops ca i x = (es, o) -> (length (filter is_write (filter_outs E g repo d cache x ++ effect_outs repo (firstn n es))) <= 1)%nat).
    { intros es o i x n OI. rewrite writes_published, map_length. pose proof (shape_once _ (interest_shape _ _ _ _ _ _ _ _ _ AT OI) n) as L. destruct repo; [rewrite (effect_published (EvRestart [])); exact L|].
      replace (published (effect_outs false (firstn n es))) with (@nil cert); [cbn; lia|]. clear. induction (firstn n es) as [|e l IH]; [reflexivity|]. unfold effect_outs in *. cbn [flat_map]. rewrite published_app, <- IH. destruct e; reflexivity. }
    destruct ev as [key i|i x|i x n|]; try discriminate ST; cbn [pstep] in ST.
    + destruct (on_interest E g ops ca i x) as [es o] eqn:OI. specialize (G es o i x (length es) OI). rewrite firstn_all in G. destruct o; try discriminate; injection ST as <- <-; exact G.
    + destruct (on_interest E g ops ca i x) as [es o] eqn:OI. specialize (G es o i x n OI). destruct o; try discriminate; injection ST as <- <-; exact G.
    + injection ST as <- <-. cbn. lia.
Qed.

(** What the repo gets while it can be reached. *)
Lemma combine_app_l : forall {A B} (a b : list A) (l : list B), combine (a ++ b) l = combine a (firstn (length a) l) ++ combine b (skipn (length a) l).
Proof. intros A B a. induction a as [|x a IH]; intros b l; [reflexivity|]. destruct l as [|y l]; [cbn; destruct b; reflexivity|]. cbn. rewrite IH. reflexivity. Qed.
Theorem repo_complete : forall E g S (ops : store_ops S) tr ca d cache ups, server_history E g ops true tr (Running ca d cache) -> length ups = length tr ->
  exists u st w a b cs, tr = u ++ st :: w /\ is_start (p_ev st) /\ Forall (fun st => ~ is_start (p_ev st)) w /\
    ca_history E g ops (a ++ b) ca /\ Forall (fun st => ~ restarts (h_ev st)) b /\ server_dealings w = module_dealings b /\ announced b cs /\
    (Forall (eq true) (skipn (length u) ups) -> in_repo tr ups (ORepoProfile d) /\ Forall (fun c => in_repo tr ups (ORepoCert c)) cs).
Proof.
  intros E g S ops tr ca d cache ups H L. destruct (process_certs _ _ _ _ _ _ _ _ _ H) as (u & st & w & a & b & -> & IS & NS & HH & NR & D & cs & AN & CA & PU).
  exists u, st, w, a, b, cs. do 7 (split; [eassumption || reflexivity|]). intros UP.
  assert (ALL : forall st' o, In st' (st :: w) -> In o (p_outs st') -> is_write o = true -> in_repo (u ++ st :: w) ups o).
  { intros st' o I O W. unfold in_repo. rewrite map_app, combine_app_l, contents_app. apply in_or_app. right. apply contents_iff. exists (p_outs st'). split; [|auto].
    rewrite map_length. rewrite app_length in L. assert (LS : length (skipn (length u) ups) = length (st :: w)) by (rewrite skipn_length; lia).
    revert UP LS I. generalize (skipn (length u) ups). generalize (st :: w). clear. intros l l'. revert l'. induction l as [|s l IH]; intros l' UP LS I; [destruct I|]. destruct l' as [|b l']; [discriminate|]. inversion UP as [|? ? <- UP']; subst.
    destruct I as [->|I]; [left; reflexivity|]. right. apply IH; [exact UP'|cbn in LS; lia|exact I]. }
  split.
  - destruct (process_profile _ _ _ _ _ _ _ _ _ H) as (_ & u2 & st0 & ev & os0 & ca0 & cache0 & w2 & Q & IS2 & NS2 & OS). subst os0.
    assert (QQ : st = SStep st0 ev [ORepoProfile d] (Running ca0 d cache0)).
    { clear - Q IS NS IS2 NS2. revert u2 Q. induction u as [|s u IH]; intros u2 Q.
      - destruct u2 as [|s2 u2]; cbn in Q; [congruence|]. injection Q as -> ->. apply Forall_app in NS as [_ NS]. inversion NS as [|? ? N _]; subst. destruct (N IS2).
      - destruct u2 as [|s2 u2]; cbn in Q; [|injection Q as _ Q; exact (IH _ Q)]. injection Q as -> <-. apply Forall_app in NS2 as [_ NS2]. inversion NS2 as [|? ? N _]; subst. destruct (N IS). }
    apply (ALL st); [left; reflexivity|subst st; left; reflexivity|reflexivity].
  - apply Forall_forall. intros c C. rewrite <- PU in C. apply in_flat_map in C as (st' & I & C). apply (ALL st'); [right; exact I| |reflexivity].
    unfold published in C. apply in_flat_map in C as (o & O & C). destruct o as [m|v|e|c']; try destruct C.
    + subst c'. exact O.
    + contradiction.
Qed.
(** A certificate that does not reach the repo in the event that issues it is lost. *)
Theorem repo_lost : forall E g S (ops : store_ops S) a st b p c ua ub, server_history E g ops true (a ++ st :: b) p -> length ua = length a ->
  In (ORepoCert c) (p_outs st) -> (forall st', In st' (a ++ b) -> ~ In (ORepoCert c) (p_outs st')) ->
  ~ in_repo (a ++ st :: b) (ua ++ false :: ub) (ORepoCert c) /\ forall st', In st' b -> ~ handed_out (p_outs st') c.
Proof.
  intros E g S ops a st b p c ua ub H L O N. split.
  - unfold in_repo. rewrite map_app, combine_app_l, map_length, <- L. rewrite firstn_app, Nat.sub_diag, firstn_all, skipn_app, Nat.sub_diag, skipn_all. cbn [app firstn skipn map combine]. rewrite app_nil_r.
    change ((p_outs st, false) :: combine (map p_outs b) ub) with ([(p_outs st, false)] ++ combine (map p_outs b) ub). rewrite !contents_app. intros I. apply in_app_or in I as [I|I]; [|apply in_app_or in I as [[]|I]];
      apply contents_iff in I as (os & I & O' & _); apply in_combine_l in I; apply in_map_iff in I as (st' & <- & I); refine (N st' (in_or_app _ _ _ _) O'); auto.
  - intros st' I [X|X]; [exact (N st' (in_or_app _ _ _ (or_intror I)) X)|]. destruct H as [LC NF B H]. apply in_split in I as (b1 & b2 & ->).
    replace (a ++ st :: b1 ++ st' :: b2) with ((a ++ st :: b1) ++ st' :: b2) in H by (rewrite <- app_assoc; reflexivity). apply psteps_app in H as (m & _ & H2). inversion H2 as [|? ev os p1 ? ? ST H3]; subst. cbn [p_outs] in X.
    assert (G : forall x es d cache, ~ In (OServed (SCert c)) (filter_outs E g true d cache x ++ effect_outs true es)).
    { intros x es d cache Y. cbn [filter_outs app] in Y. unfold effect_outs in Y. apply in_flat_map in Y as (e & _ & Y). destruct e; try (destruct (_ && _)); cbn in Y; try contradiction; (destruct Y as [Y|Y]; [discriminate Y|exact Y]). }
    destruct m as [st0|ca d cache]; destruct ev as [key i|i x|i x n|]; try discriminate ST; cbn [pstep] in ST.
    + destruct (on_get_profile _ _ _ _) as [es [dd| | |]]; try discriminate; injection ST as <- <-; [destruct X as [X|[]]; discriminate|destruct X].
    + destruct (on_interest E g ops ca i x) as [es o]. destruct o; try discriminate; injection ST as <- <-; exact (G x _ d cache X).
    + destruct (on_interest E g ops ca i x) as [es o]. destruct o; try discriminate; injection ST as <- <-; exact (G x _ d cache X).
    + injection ST as <- <-. destruct X.
Qed.

Theorem repo_exact : forall T (tr : list (sstep T)) ups o, in_repo tr ups o <->
  exists n st, nth_error tr n = Some st /\ nth_error ups n = Some true /\ In o (p_outs st) /\ ((exists d, o = ORepoProfile d) \/ exists c, o = ORepoCert c).
Proof.
  intros T tr ups o. unfold in_repo. rewrite contents_iff.
  assert (W : is_write o = true <-> (exists d, o = ORepoProfile d) \/ exists c, o = ORepoCert c).
  { destruct o as [m|v|d|c]; cbn; split; try discriminate; try (intros [[? Q]|[? Q]]; discriminate Q); intros _; try reflexivity; eauto. }
  split.
  - intros (os & I & O & X). apply W in X. apply In_nth_error in I as [n I]. revert n ups I. induction tr as [|st tr IH]; intros n ups I; [destruct n; discriminate|]. destruct ups as [|up ups]; [destruct n; discriminate|].
    destruct n as [|n]; [injection I as <- ->; exists 0%nat, st; auto|]. destruct (IH _ _ I) as (m & st' & R). exists (S m), st'. exact R.
  - intros (n & st & A & B & O & X). exists (p_outs st). split; [|split; [exact O|apply W; exact X]]. revert n ups A B. induction tr as [|st' tr IH]; intros n ups A B; [destruct n; discriminate|]. destruct ups as [|up ups]; [destruct n; discriminate|].
    destruct n as [|n]; [injection A as ->; injection B as ->; left; reflexivity|right; exact (IH _ _ A B)].
Qed.
