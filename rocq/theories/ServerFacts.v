(** The CA server's certificate cache. *)
From Verif Require Import TraceProps.
From Verif Require Export Spec_Server.
Local Open Scope N_scope.

Definition to_cache (r : request) : bool := (rq_status r =? ST_SUCCESS) && (rq_type r =? RT_NEW).
Definition boring (e : eff) : Prop :=
  match e with EIssue _ => False | ECallback r => to_cache r = false | _ => True end.
Inductive shape : list eff -> Prop :=
| sh_issue : forall c id d r, to_cache r = true -> rq_cert r = c -> shape [EIssue c; EDelete id; EPut d; ECallback r]
| sh_unsaid : forall c id, shape [EIssue c; EDelete id]
| sh_boring : forall es, Forall boring es -> shape es.

Lemma live_types : forall E r issued fwd rnd payload r3, chal_encode E r issued fwd rnd = (Ok payload, r3) ->
  rq_status r3 = rq_status r /\ rq_type r3 = rq_type r /\ rq_cert r3 = rq_cert r.
Proof.
  intros E r issued fwd rnd payload r3 H. unfold chal_encode in H. destruct (chal_plain r issued fwd); try discriminate.
  destruct (encode_aes _ _ _ _ _ _) as [o iv]. destruct o; injection H as _ <-; auto.
Qed.
Lemma emails_boring : forall em, Forall boring (email_effs em).
Proof. intros [c|]; repeat constructor. Qed.
Lemma chal_shape : forall E g i x r full o, chal_out E g i x r (full, o) -> rq_type r = RT_NEW \/ rq_type r = RT_REVOKE -> shape full.
Proof.
  intros E g i x r full o H T. inversion H as [ info FI S | code info S K | o' S Q | params ty dv cs em payload r3 S OP KT M CE
    | params ty dv cs em o' r3 S OP KT M Q N | params ty dv cs c payload r3 S OP KT ST CS PA TY IC CE | params ty dv cs c o' r3 S OP KT ST CS PA TY IC Q N
    | params ty dv cs payload r3 S OP KT ST CS PA TY CE | params ty dv cs o' r3 S OP KT ST CS PA TY Q N ]; subst full o; try (apply sh_boring; repeat constructor; fail).
  - apply sh_boring, Forall_app. split; [apply emails_boring|]. constructor; [exact I|]. constructor; [exact I|]. constructor; [|constructor].
    destruct (live_types _ _ _ _ _ _ _ CE) as (A & _). unfold boring, to_cache. rewrite A. reflexivity.
  - apply sh_boring, emails_boring.
  - destruct (live_types _ _ _ _ _ _ _ CE) as (A & B & C). apply sh_issue; [|rewrite C; reflexivity]. unfold to_cache. rewrite A, B.
    change (rq_status (set_status ST_SUCCESS (set_cert c (passed dv ty r)))) with ST_SUCCESS. change (rq_type (set_status ST_SUCCESS (set_cert c (passed dv ty r)))) with (rq_type r).
    destruct T as [T|T]; rewrite T in *; [reflexivity|]. destruct TY as [Q|Q]; discriminate Q.
  - apply sh_unsaid.
  - apply sh_boring. constructor; [exact I|]. constructor; [exact I|]. constructor; [|constructor].
    destruct (live_types _ _ _ _ _ _ _ CE) as (_ & B & _). unfold boring, to_cache. rewrite B. change (rq_type (set_status ST_SUCCESS (passed dv ty r))) with (rq_type r). rewrite TY. apply andb_false_r.
Qed.
Lemma interest_shape : forall E g S (ops : store_ops S) s i x full o, ca_at E g ops s -> on_interest E g ops s i x = (full, o) -> shape full.
Proof.
  intros E g S ops s i x full o A H.
  assert (NEW : forall add_ok rt, rt = RT_NEW \/ rt = RT_REVOKE -> on_new E g add_ok (ca_idkey s) i rt x = (full, o) -> shape full).
  { intros add_ok rt RT Q. apply on_new_cases in Q; [|exact RT]. destruct Q as [(peer & c & AD & AO & -> & ->)|[(code & info & -> & -> & _ & _)|(-> & -> & _)]]; apply sh_boring; repeat constructor. }
  destruct (on_interest_cases E g S ops s i x) as [[NA Q]|(v & AD & Q)]; rewrite Q in H.
  - injection H as <- <-. apply sh_boring. constructor.
  - destruct v; cbn [handle] in H.
    + unfold on_discovery, on_get_profile in H. destruct (profile_data E g (ca_prof s) (in_version i)); [destruct (ca_prof s)| | |]; injection H as <- <-; apply sh_boring; repeat constructor.
    + unfold on_probe in H. match type of H with match ?b with _ => _ end = _ => destruct b as [[reds sufs]| | |] end; try (injection H as <- <-; apply sh_boring; constructor).
      destruct reds, sufs; unfold put_error in H; injection H as <- <-; apply sh_boring; repeat constructor.
    + exact (NEW _ RT_NEW (or_introl eq_refl) H).
    + destruct (on_challenge_cases E g (s_get ops (ca_store s)) i x) as [(r & F & CO)|[(NF' & NUB & info & FI & Q')|(UB1 & Q')]].
      * rewrite H in CO. destruct F as (id & _ & GR). destruct (pending_good E g S ops s id r A GR) as (_ & _ & _ & _ & T & _). exact (chal_shape E g i x r full o CO T).
      * rewrite Q' in H. injection H as <- <-. apply sh_boring. repeat constructor.
      * rewrite Q' in H. injection H as <- <-. apply sh_boring. constructor.
    + exact (NEW _ RT_REVOKE (or_intror eq_refl) H).
Qed.
Lemma step_shape : forall E g S (ops : store_ops S) s ev s' es, ca_at E g ops s -> step E g ops s ev = Some (s', es) -> ~ restarts ev -> shape es.
Proof.
  intros E g S ops s ev s' es A H NR. destruct ev as [i x|i x n k|k|i]; try (destruct NR; exact I).
  - cbn [step] in H. destruct (on_interest E g ops s i x) as [full o] eqn:Q. assert (full = es) by (destruct o; congruence). subst full. exact (interest_shape E g S ops s i x es o A Q).
  - cbn [step] in H. unfold on_get_profile in H. destruct (profile_data E g (ca_prof s) (in_version i)); try discriminate; [destruct (ca_prof s)|]; injection H as <- <-; apply sh_boring; repeat constructor.
Qed.
Definition put_front (c : cert) (l : list cert) : list cert := firstn max_cached (c :: l).
Lemma callback_fold : forall es cache, Forall boring es -> fold_left (fun c e => match e with ECallback r => cache_callback c r | _ => c end) es cache = cache.
Proof.
  intros es. induction es as [|e es IH]; intros cache F; [reflexivity|]. inversion F as [|? ? F1 F2]; subst. cbn [fold_left]. destruct e; cbn [boring] in F1; try contradiction; try (apply IH, F2).
  unfold cache_callback. change ((rq_status r =? ST_SUCCESS) && (rq_type r =? RT_NEW)) with (to_cache r). rewrite F1. apply IH, F2.
Qed.
Lemma removelast_firstn_len : forall (A : Type) (l : list A), removelast l = firstn (length l - 1) l.
Proof.
  induction l as [|a l IH]; [reflexivity|]. cbn [removelast length]. destruct l as [|b l]; [reflexivity|]. rewrite IH. cbn [length Nat.sub firstn]. rewrite Nat.sub_0_r. reflexivity.
Qed.
Lemma push_trim : forall (c : cert) cache, (length cache <= max_cached)%nat -> (if Nat.ltb max_cached (length (c :: cache)) then removelast (c :: cache) else c :: cache) = firstn max_cached (c :: cache).
Proof.
  intros c cache L. destruct (Nat.ltb max_cached (length (c :: cache))) eqn:B.
  - apply Nat.ltb_lt in B. cbn [length] in B. rewrite removelast_firstn_len. f_equal. cbn [length]. lia.
  - apply Nat.ltb_ge in B. symmetry. apply firstn_all2. exact B.
Qed.
Lemma boring_facts : forall es, Forall boring es -> (forall c, ~ In (EIssue c) es) /\ flat_map (fun e => match e with ECallback r => if to_cache r then [rq_cert r] else [] | _ => [] end) es = [].
Proof.
  induction 1 as [|e es B F [IH1 IH2]]; [split; [intros c []|reflexivity]|]. split.
  - intros c [Q|Q]; [subst e; exact B|exact (IH1 c Q)].
  - cbn [flat_map]. rewrite IH2. destruct e; cbn in B; try reflexivity. rewrite B. reflexivity.
Qed.
(** One event: the certificate announced, if any, is what the callbacks hand over. *)
Lemma shape_step : forall S (st : hstep S), shape (h_effs st) -> ~ restarts (h_ev st) ->
  exists cs, (cs = [] /\ (forall c, ~ announces st c) \/ exists c, cs = [c] /\ announces st c /\ forall c', announces st c' -> c' = c) /\
    repo_writes (h_ev st, h_effs st) = cs /\
    forall cache, (length cache <= max_cached)%nat -> cache_event cache (h_ev st, h_effs st) = firstn max_cached (rev cs ++ cache).
Proof.
  intros S st SH NR. assert (CE : forall cache, cache_event cache (h_ev st, h_effs st) = fold_left (fun c e => match e with ECallback r => cache_callback c r | _ => c end) (h_effs st) cache).
  { intros cache. unfold cache_event. cbn [fst snd]. destruct (h_ev st); try reflexivity; destruct NR; exact I. }
  unfold repo_writes. cbn [snd]. unfold announces, answered. remember (h_effs st) as fx eqn:FX. clear FX. destruct SH as [c id d r T RC|c id|es F].
  - exists [c]. split; [right; exists c; split; [reflexivity|]; split; [split; [left; reflexivity|discriminate]|]|].
    { intros c' ([X|[X|[X|[X|[]]]]] & _); congruence. }
    split; [cbn [flat_map app]; fold (to_cache r); rewrite T, RC; reflexivity|]. intros cache L. rewrite CE. cbn [fold_left]. unfold cache_callback. fold (to_cache r). rewrite T, RC.
    exact (push_trim c cache L).
  - exists []. split; [left; split; [reflexivity|]; intros c' (_ & A); apply A; reflexivity|]. split; [reflexivity|]. intros cache L. rewrite CE. symmetry. exact (firstn_all2 cache L).
  - destruct (boring_facts _ F) as [B1 B2]. exists []. split; [left; split; [reflexivity|]; intros c (A & _); exact (B1 c A)|]. split; [exact B2|].
    intros cache L. rewrite CE, callback_fold by exact F. symmetry. exact (firstn_all2 cache L).
Qed.
Lemma announced_app : forall S (a b : list (hstep S)) ca cb, announced a ca -> announced b cb -> announced (a ++ b) (ca ++ cb).
Proof. intros S a b ca cb H. induction H; intros B; [exact B|cbn; apply an_yes; auto|cbn; apply an_no; auto]. Qed.
Lemma firstn_firstn_app : forall (A : Type) n (a b : list A), firstn n (a ++ firstn n b) = firstn n (a ++ b).
Proof. intros A n a b. rewrite !firstn_app, firstn_firstn. f_equal. f_equal. lia. Qed.
Lemma served_steps : forall E g S (ops : store_ops S) s tr s', steps E g ops s tr s' -> ca_at E g ops s -> Forall (fun st => ~ restarts (h_ev st)) tr ->
  (exists cs, announced tr cs) /\ (forall cs, announced tr cs -> flat_map repo_writes (seen tr) = cs /\
     forall cache, (length cache <= max_cached)%nat -> fold_left cache_event (seen tr) cache = firstn max_cached (rev cs ++ cache)).
Proof.
  intros E g S ops s tr s' H. induction H as [s|s ev es s1 tr s2 ST H IH]; intros A NR.
  - split; [exists []; constructor|]. intros cs AN. inversion AN; subst. split; [reflexivity|]. intros cache L. symmetry. exact (firstn_all2 cache L).
  - inversion NR as [|? ? N1 N2]; subst. cbn [h_ev] in N1. destruct (IH (ca_at_step _ _ _ _ _ _ _ _ A ST) N2) as [(cs0 & E0) IH2].
    pose proof (step_shape _ _ _ _ _ _ _ _ A ST N1) as SH. destruct (shape_step S (HStep s ev es s1) SH N1) as (c1 & C1 & R1 & K1). cbn [h_ev h_effs] in R1, K1.
    assert (GO : forall cs', announced tr cs' -> flat_map repo_writes (seen (HStep s ev es s1 :: tr)) = c1 ++ cs' /\
      forall cache, (length cache <= max_cached)%nat -> fold_left cache_event (seen (HStep s ev es s1 :: tr)) cache = firstn max_cached (rev (c1 ++ cs') ++ cache)).
    { intros cs' AN. destruct (IH2 cs' AN) as [Q1 Q2]. change (seen (HStep s ev es s1 :: tr)) with ((ev, es) :: seen tr). cbn [flat_map fold_left]. split; [rewrite R1, Q1; reflexivity|].
      intros cache L. rewrite (K1 cache L). rewrite Q2 by (rewrite firstn_length; lia). rewrite firstn_firstn_app, rev_app_distr, app_assoc. reflexivity. }
    split.
    + exists (c1 ++ cs0). destruct C1 as [[-> N]|(c & -> & Y & _)]; [apply an_no|apply an_yes]; assumption.
    + clear R1 K1. intros cs AN. inversion AN as [|? ? c cs' Y AN'|? ? cs' N AN']; subst.
      * destruct C1 as [[-> N]|(c0 & -> & _ & U)]; [destruct (N c Y)|]. rewrite (U c Y). exact (GO cs' AN').
      * destruct C1 as [[-> _]|(c0 & -> & Y & _)]; [exact (GO cs AN')|destruct (N c0 Y)].
Qed.
Lemma fresh_cache : forall S (a : list (hstep S)), (a = [] \/ exists a' st, a = a' ++ [st] /\ restarts (h_ev st)) -> server_cache (seen a) = [].
Proof.
  intros S a [->|(a' & st & -> & R)]; [reflexivity|]. unfold server_cache, seen. rewrite map_app, fold_left_app. cbn [map fold_left]. unfold cache_event at 1. cbn [fst].
  destruct (h_ev st); try destruct R; reflexivity.
Qed.
Lemma cache_holds : forall E g S (ops : store_ops S) a b s, ca_history E g ops (a ++ b) s ->
  a = [] \/ (exists a' st, a = a' ++ [st] /\ restarts (h_ev st)) -> Forall (fun st => ~ restarts (h_ev st)) b ->
  (exists cs, announced b cs) /\ forall cs, announced b cs -> server_cache (seen (a ++ b)) = firstn 100 (rev cs).
Proof.
  intros E g S ops a b s H FR NR. apply history_cut in H as (m & H1 & H2). destruct (served_steps _ _ _ _ _ _ _ H2 (history_at _ _ _ _ _ _ H1) NR) as [X Y].
  split; [exact X|]. intros cs AN. unfold server_cache, seen. rewrite map_app, fold_left_app. pose proof (fresh_cache S a FR) as FC. unfold server_cache, seen in FC. rewrite FC.
  destruct (Y cs AN) as [_ Y2]. unfold seen in Y2. rewrite (Y2 [] (Nat.le_0_l _)), app_nil_r. reflexivity.
Qed.
Lemma repo_gets : forall E g S (ops : store_ops S) a b s, ca_history E g ops (a ++ b) s -> Forall (fun st => ~ restarts (h_ev st)) b ->
  forall cs, announced b cs -> flat_map repo_writes (seen b) = cs.
Proof.
  intros E g S ops a b s H NR cs AN. apply history_cut in H as (m & H1 & H2). destruct (served_steps _ _ _ _ _ _ _ H2 (history_at _ _ _ _ _ _ H1) NR) as [_ Y]. exact (proj1 (Y cs AN)).
Qed.
Lemma begins_iff : forall n m, is_prefix n m = true <-> begins n m.
Proof. intros n m. apply is_prefix_iff. Qed.
Lemma begins_not : forall n m, is_prefix n m = false <-> ~ begins n m.
Proof. intros n m. rewrite <- begins_iff. destruct (is_prefix n m); split; intros H; try congruence; try reflexivity; try discriminate. Qed.
Lemma find_cut : forall (A : Type) (f : A -> bool) l, match find f l with
  | Some a => exists l1 l2, l = l1 ++ a :: l2 /\ f a = true /\ Forall (fun x => f x = false) l1
  | None => Forall (fun x => f x = false) l end.
Proof.
  intros A f l. induction l as [|a l IH]; [constructor|]. cbn [find]. destruct (f a) eqn:Q; [exists [], l; auto|].
  destruct (find f l); [|constructor; assumption]. destruct IH as (l1 & l2 & -> & H1 & H2). exists (a :: l1), l2. split; [reflexivity|]. split; [exact H1|]. constructor; assumption.
Qed.
Lemma serves : forall E profile cache n, match serve E profile cache n with
  | Some (SProfile d) => d = profile /\ begins n (d_name profile)
  | Some (SCert c) => ~ begins n (d_name profile) /\ exists newer older, cache = newer ++ c :: older /\
      begins n (full_name E c) /\ Forall (fun c' => ~ begins n (full_name E c')) newer
  | None => ~ begins n (d_name profile) /\ Forall (fun c => ~ begins n (full_name E c)) cache
  end.
Proof.
  intros E profile cache n. unfold serve. destruct (is_prefix n (d_name profile)) eqn:P; [apply begins_iff in P; auto|]. apply begins_not in P.
  pose proof (find_cut _ (fun c => is_prefix n (full_name E c)) cache) as H. destruct (find _ cache).
  - split; [exact P|]. destruct H as (l1 & l2 & Q & H1 & H2). exists l1, l2. split; [exact Q|]. split; [apply begins_iff, H1|]. eapply Forall_impl; [|exact H2]. intros c' X. apply begins_not, X.
  - split; [exact P|]. eapply Forall_impl; [|exact H]. intros c' X. apply begins_not, X.
Qed.
(** A certificate can be fetched by the name announced. *)
Lemma fetchable : forall E g S (ops : store_ops S) a b s older c newer profile n, ca_history E g ops (a ++ b) s ->
  a = [] \/ (exists a' st, a = a' ++ [st] /\ restarts (h_ev st)) -> Forall (fun st => ~ restarts (h_ev st)) b ->
  announced b (older ++ c :: newer) -> (length newer < 100)%nat -> begins n (full_name E c) -> ~ begins n (d_name profile) ->
  exists c', serve E profile (server_cache (seen (a ++ b))) n = Some (SCert c') /\ In c' (c :: newer) /\ begins n (full_name E c').
Proof.
  intros E g S ops a b s older c newer profile n H FR NR AN L BN NP. destruct (cache_holds _ _ _ _ _ _ _ H FR NR) as [_ K]. rewrite (K _ AN).
  assert (Q : exists rest, firstn 100 (rev (older ++ c :: newer)) = (rev newer ++ [c]) ++ rest).
  { rewrite rev_app_distr. cbn [rev]. rewrite firstn_app. rewrite firstn_all2; [eauto|]. rewrite app_length, rev_length. cbn [length]. lia. }
  destruct Q as (rest & Q). rewrite Q. pose proof (serves E profile ((rev newer ++ [c]) ++ rest) n) as SV.
  destruct (serve E profile ((rev newer ++ [c]) ++ rest) n) as [[d|c']|].
  - destruct SV as [_ SV]. destruct (NP SV).
  - exists c'. split; [reflexivity|]. destruct SV as (_ & nw & od & QQ & B & F). split; [|exact B].
    assert (IN : In c' (rev newer ++ [c]) \/ exists k, nw = (rev newer ++ [c]) ++ k).
    { clear - QQ. revert QQ. generalize (rev newer ++ [c]). intros l. revert nw. induction l as [|x l IH]; intros nw QQ; [right; exists nw; reflexivity|].
      destruct nw as [|y nw]; cbn in QQ; injection QQ as -> QQ; [left; left; reflexivity|]. destruct (IH nw QQ) as [I|(k & ->)]; [left; right; exact I|right; exists k; reflexivity]. }
    destruct IN as [IN|(k & ->)].
    + apply in_app_or in IN as [IN|[->|[]]]; [right; apply in_rev; exact IN|left; reflexivity].
    + rewrite Forall_forall in F. destruct (F c); [|exact BN]. rewrite !in_app_iff. left. right. left. reflexivity.
  - destruct SV as [_ F]. rewrite Forall_forall in F. destruct (F c); [|exact BN]. rewrite !in_app_iff. left. right. left. reflexivity.
Qed.
