(** What the client does with the choices the user types. *)
From Verif Require Import AcceptFacts ClientFacts ClientEndFacts ConfigFacts RequesterFacts NameFacts.
From Verif Require Export Spec_ClientChoice.
From Coq Require Import Lia.
Local Open Scope N_scope.

Lemma next_typed : forall ls, next_line ls = (typed ls 0, skipn 1 ls).
Proof. destruct ls; reflexivity. Qed.
Lemma typed_skip : forall ls k j, typed (skipn k ls) j = typed ls (k + j).
Proof. unfold typed. intros ls k. revert ls. induction k as [|k IH]; intros ls j; [reflexivity|]. destruct ls as [|l ls]; cbn [skipn Nat.add]; [destruct j, k; reflexivity|]. exact (IH ls j). Qed.
Lemma skip_skip : forall (ls : list bytes) a b, skipn a (skipn b ls) = skipn (b + a) ls.
Proof. intros ls a b. revert ls. induction b as [|b IH]; intros ls; [reflexivity|]. destruct ls; cbn [skipn Nat.add]; [apply skipn_nil|apply IH]. Qed.
Lemma number_unique : forall l v w, number_line l v -> number_line l w -> v = w.
Proof. intros l v w A B. apply number_read in A, B. congruence. Qed.

(** The loops. *)
Lemma settles_later : forall ls n ok j v, (forall w, number_line (typed ls 0) w -> ~ ok w) -> settles (skipn 1 ls) n ok j v -> settles ls (S n) ok (S j) v.
Proof.
  intros ls n ok j v N0 (A & B & C & D). rewrite typed_skip in B. split; [lia|]. split; [exact B|]. split; [exact C|].
  intros i w LT NL. destruct i as [|i]; [exact (N0 w NL)|]. apply (D i w); [lia|]. rewrite typed_skip. exact NL.
Qed.
Lemma index_settles : forall n k ls o ls', capture_index n k ls = (o, ls') ->
  match o with
  | Some i => exists j, settles ls n (below k) j (N.of_nat i) /\ ls' = skipn (S j) ls
  | None => unsettled ls n (below k)
  end.
Proof.
  induction n as [|n IH]; intros k ls o ls' H; cbn [capture_index] in H; [injection H as <- <-; intros i w LT; lia|]. rewrite next_typed in H.
  assert (LATER : (forall w, number_line (typed ls 0) w -> ~ below k w) -> capture_index n k (skipn 1 ls) = (o, ls') ->
    match o with Some i => exists j, settles ls (S n) (below k) j (N.of_nat i) /\ ls' = skipn (S j) ls | None => unsettled ls (S n) (below k) end).
  { intros N0 Q. specialize (IH _ _ _ _ Q). destruct o as [i|].
    - destruct IH as (j & SE & ->). exists (S j). split; [exact (settles_later _ _ _ _ _ N0 SE)|]. rewrite skip_skip. reflexivity.
    - intros [|i] w LT NL; [exact (N0 w NL)|]. apply (IH i w); [lia|]. rewrite typed_skip. exact NL. }
  destruct (stoul (typed ls 0)) as [v|] eqn:ST.
  - destruct (v <? N.of_nat k) eqn:LT.
    + injection H as <- <-. exists 0%nat. split; [|reflexivity]. rewrite N2Nat.id. split; [lia|]. split; [apply number_read; exact ST|]. split; [apply N.ltb_lt; exact LT|]. intros i w L. lia.
    + apply LATER; [|exact H]. intros w NL B. apply number_read in NL. apply N.ltb_ge in LT. unfold below in B. assert (w = v) by congruence. lia.
  - apply LATER; [|exact H]. intros w NL _. apply number_read in NL. congruence.
Qed.
Lemma validity_settles : forall n ls o ls', capture_validity n ls = (o, ls') ->
  match o with
  | Some h => exists j v, settles ls n any j v /\ h = to_i32 v /\ ls' = skipn (S j) ls
  | None => unsettled ls n any
  end.
Proof.
  induction n as [|n IH]; intros ls o ls' H; cbn [capture_validity] in H; [injection H as <- <-; intros i w LT; lia|]. rewrite next_typed in H.
  destruct (stoul (typed ls 0)) as [v|] eqn:ST.
  - injection H as <- <-. exists 0%nat, v. split; [|split; reflexivity]. split; [lia|]. split; [apply number_read; exact ST|]. split; [exact I|]. intros i w L. lia.
  - assert (N0 : forall w, number_line (typed ls 0) w -> ~ any w) by (intros w NL _; apply number_read in NL; congruence).
    specialize (IH _ _ _ H). destruct o as [i|].
    + destruct IH as (j & v & SE & -> & ->). exists (S j), v. split; [exact (settles_later _ _ _ _ _ N0 SE)|]. split; [reflexivity|]. rewrite skip_skip. reflexivity.
    + intros [|i] w LT NL; [exact (N0 w NL)|]. apply (IH i w); [lia|]. rewrite typed_skip. exact NL.
Qed.
Lemma settles_unique : forall ls n ok j v j' v', settles ls n ok j v -> settles ls n ok j' v' -> j = j' /\ v = v'.
Proof.
  intros ls n ok j v j' v' (A & B & C & D) (A' & B' & C' & D'). assert (j = j').
  { destruct (Nat.lt_trichotomy j j') as [L|[L|L]]; [destruct (D' j v L B C)|exact L|destruct (D j' v' L B' C')]. }
  subst j'. split; [reflexivity|]. exact (number_unique _ _ _ B B').
Qed.
Lemma settles_not : forall ls n ok j v, settles ls n ok j v -> unsettled ls n ok -> False.
Proof. intros ls n ok j v (A & B & C & _) U. exact (U j v A B C). Qed.

(** Replies. *)
Lemma good_iff : forall E p d, good_reply E p d <-> check_reply E p d = Ok tt.
Proof.
  intros E p d. unfold good_reply, check_reply. split.
  - intros (k & -> & NB). destruct (verify_data E d k) eqn:V; [|destruct NB; left; unfold data_verifies; change (verify_data E d k <> true); congruence].
    unfold process_if_error. destruct (fst (err_decode (d_content d)) =? NO_ERROR) eqn:Q; [reflexivity|]. destruct NB. right. exists (fst (err_decode (d_content d))). apply N.eqb_neq in Q. split; [exact Q|]. apply decoded_error; [reflexivity|exact Q].
  - destruct (p_cert p) as [k|]; [|discriminate]. destruct (verify_data E d k) eqn:V; [|discriminate]. unfold process_if_error. destruct (fst (err_decode (d_content d)) =? NO_ERROR) eqn:Q; [|discriminate]. intros _.
    exists k. split; [reflexivity|]. intros [B|(code & N & C)]; [exact (B V)|]. apply N.eqb_eq in Q. apply error_decoded in C. congruence.
Qed.
Lemma probe_response_iff : forall E d p names redirects, on_probe_response E d p = Ok (names, redirects) <-> good_reply E p d /\ probe_reads (d_content d) names redirects.
Proof.
  intros. unfold on_probe_response. rewrite good_iff, <- probe_decode_iff. destruct (check_reply E p d) as [[]| | |]; cbn [bind]; split; try discriminate; try (intros [Q _]; discriminate); [intros Q; split; [reflexivity|exact Q]|intros [_ Q]; exact Q].
Qed.

(** Redirections. *)
Lemma discovery_made : forall ca i, gen_discovery ca = Ok i -> discovers ca i.
Proof.
  intros ca i H. unfold gen_discovery in H. destruct ca as [|a ca] using rev_ind; [discriminate|]. clear IHca.
  pose proof (get_neg_app ca [a] ltac:(cbn; lia)) as G. cbn [length nth_error] in G. rewrite G in H. cbn [of_opt bind] in H. injection H as <-. exists ca, a. split; [reflexivity|]. split; intros Q.
  - apply bytes_eqb_eq in Q. rewrite Q. reflexivity.
  - destruct (bytes_eqb (t_val a) (bs "CA")) eqn:Q1; [apply bytes_eqb_eq in Q1; contradiction|]. cbn [i_name]. rewrite <- (app_assoc (ca ++ [a])). reflexivity.
Qed.
Lemma ca_of_full_iff : forall full ca, ca_of_full full = Ok ca <-> full_of ca full.
Proof.
  intros full ca. unfold ca_of_full. split.
  - destruct (valid_cert_name (prefix_neg 1 full)) eqn:V; [|discriminate]. intros Q. injection Q as Q. destruct full as [|l full] using rev_ind; [discriminate|]. clear IHfull.
    pose proof (prefix_neg_app full [l]) as P. cbn [length] in P. rewrite P in *. apply valid_cert_name_shape in V as (a & b & e & V). rewrite Q in V. exists a, b, e, l. rewrite V, <- app_assoc. reflexivity.
  - intros (a & b & e & l & ->). change [gc (bs "KEY"); a; b; e; l] with ([c_KEY; a; b; e] ++ [l]). rewrite app_assoc. pose proof (prefix_neg_app (ca ++ [c_KEY; a; b; e]) [l]) as P. cbn [length] in P. rewrite P.
    rewrite valid_cert_name_of_shape, identity_of_shape. reflexivity.
Qed.
Lemma redirect_sends : forall c f c' x w, redirect_to c f = (c', NWait x w) -> c' = c /\ w = WMeta f /\ exists ca, full_of ca f /\ discovers ca x.
Proof.
  intros c f c' x w H. unfold redirect_to in H. destruct (ca_of_full f) as [ca| | |] eqn:CF; try discriminate. unfold discover in H. destruct (gen_discovery ca) as [i| | |] eqn:G; try discriminate.
  injection H as <- <- <-. split; [reflexivity|]. split; [reflexivity|]. exists ca. split; [apply ca_of_full_iff; exact CF|]. exact (discovery_made _ _ G).
Qed.
Lemma all_full : forall l, Forall (fun full => exists ca, full_of ca full) l -> all_cas l = Ok tt.
Proof. induction 1 as [|f l (ca & F) _ IH]; [reflexivity|]. cbn [all_cas]. apply ca_of_full_iff in F. rewrite F. exact IH. Qed.
Lemma picked_number : forall A ls (l : list A) k ls', capture_one (length l) ls = (Some k, ls') -> (1 < length l)%nat -> forall a, nth_error l k = Some a -> picked ls l a ls'.
Proof.
  intros A ls l k ls' H LT a NE. apply index_settles in H as (j & (J & N0 & _) & ->). assert (j = 0%nat) by lia. subst j. apply (pd_typed ls l a (N.of_nat k)); [exact LT|exact N0|]. rewrite Nat2N.id. exact NE.
Qed.
Lemma picked_again : forall A ls (l : list A) a ls', (1 < length l)%nat -> picked ls l a ls' -> exists k, capture_one (length l) ls = (Some k, ls') /\ nth_error l k = Some a.
Proof.
  intros A ls l a ls' LT P. destruct P as [a|l a v _ NL NE]; [cbn in LT; lia|]. exists (N.to_nat v). split; [|exact NE].
  unfold capture_one. cbn [capture_index]. rewrite next_typed. apply number_read in NL. rewrite NL. assert (B : v < N.of_nat (length l)) by (apply nth_error_Some in H || (assert (nth_error l (N.to_nat v) <> None) as H by congruence; apply nth_error_Some in H); lia).
  apply N.ltb_lt in B. rewrite B. reflexivity.
Qed.
Lemma one_unsettled : forall n ls, unsettled ls 1 (below n) -> exists ls', capture_one n ls = (None, ls').
Proof.
  intros n ls U. unfold capture_one. destruct (capture_index 1 n ls) as [[k|] ls'] eqn:Q; [|eauto]. apply index_settles in Q as (j & S & _). destruct (settles_not _ _ _ _ _ S U).
Qed.

(** Names, hours and keys. *)
Lemma key_line : forall c i k2 ls r c', capture_key c i k2 ls = (r, c') ->
  match r with
  | Some k => (lower_of (typed ls 0) (bs "new") /\ k = k2) \/ exists v, number_line (typed ls 0) v /\ nth_error (id_keys i) (N.to_nat v) = Some k
  | None => ~ lower_of (typed ls 0) (bs "new") /\ unsettled ls 1 (below (length (id_keys i)))
  end /\ cl_req c' = cl_req c.
Proof.
  intros c i k2 ls r c' H. unfold capture_key in H. rewrite next_typed in H. destruct (bytes_eqb (to_lower (typed ls 0)) (bs "new")) eqn:B.
  - injection H as <- <-. apply bytes_eqb_eq, lower_iff in B. split; [left; split; [exact B|reflexivity]|reflexivity].
  - assert (NL : ~ lower_of (typed ls 0) (bs "new")) by (intros Q; apply lower_iff in Q; rewrite Q, bytes_eqb_refl in B; discriminate).
    destruct (stoul (typed ls 0)) as [v|] eqn:ST.
    + destruct (N.of_nat (length (id_keys i)) <=? v) eqn:LE; injection H as <- <-.
      * split; [|reflexivity]. split; [exact NL|]. intros j w J N0 BW. assert (j = 0%nat) by lia. subst j. apply number_read in N0. apply N.leb_le in LE. unfold below in BW. assert (w = v) by congruence. lia.
      * apply N.leb_gt in LE. destruct (nth_error (id_keys i) (N.to_nat v)) as [k|] eqn:NT; [|apply nth_error_None in NT; lia]. split; [|reflexivity]. right. exists v. split; [apply number_read; exact ST|exact NT].
    + injection H as <- <-. split; [|reflexivity]. split; [exact NL|]. intros j w J N0 _. assert (j = 0%nat) by lia. subst j. apply number_read in N0. congruence.
Qed.
Lemma pib_get_name : forall n p i, pib_get n p = Some i -> id_name i = n.
Proof. intros n p i. induction p as [|j p IH]; cbn [pib_get]; [discriminate|]. destruct (name_eqb (id_name j) n) eqn:Q; [intros H; injection H as <-; apply name_eqb_eq; exact Q|exact IH]. Qed.
Lemma keys_again : forall ci i k1, k1 = (id_name i ++ [c_KEY; fst (ci_key1 ci)], snd (ci_key1 ci)) -> id_default i = None -> id_keys (add_key k1 i) = keys_shown ci i.
Proof. intros ci i k1 -> D. unfold keys_shown. rewrite D. reflexivity. Qed.
Lemma run_new_choice : forall E c ci ls p idn c' nx, idn <> [] -> cl_newid c = [] -> run_new E c ci ls p idn = (c', nx) ->
  (unsettled ls 3 any /\ c' = c /\ nx = NExit 1) \/
  exists j v, settles ls 3 any j v /\
   ((exists i, pib_get idn (cl_pib c) = Some i /\ ~ lower_of (typed (skipn (S j) ls) 0) (bs "new") /\ unsettled (skipn (S j) ls) 1 (below (length (keys_shown ci i))) /\ nx = NExit 1) \/
    exists kn sk, key_picked (cl_pib c) ci (skipn (S j) ls) idn kn sk /\ nx <> NExit 1 /\
      forall x w, nx = NWait x w -> w = WNew /\ has_applied E c' x (request_init p RT_NEW (ci_ecdh ci) (ci_id0 ci)) (ci_ri ci) kn sk (ci_now ci) (ci_now ci + sec (to_i32 v * 3600))).
Proof.
  intros E c ci ls p idn c' nx NE NI. unfold run_new. destruct (capture_validity 3 ls) as [[hours|] ls1] eqn:CV; pose proof (validity_settles _ _ _ _ CV) as VS; cbv beta iota in VS; [|intros Q; injection Q as <- <-; left; auto].
  destruct VS as (j & v & SE & -> & ->). cbv zeta. intros H. right. exists j, v. split; [exact SE|]. revert H.
  set (s := request_init p RT_NEW (ci_ecdh ci) (ci_id0 ci)). set (k1 := (idn ++ [c_KEY; fst (ci_key1 ci)], snd (ci_key1 ci))). set (k2 := (idn ++ [c_KEY; fst (ci_key2 ci)], snd (ci_key2 ci))). set (ls1 := skipn (S j) ls).
  change (cl_pib (up_req (Some s) c)) with (cl_pib c).
  assert (LAST : forall c4 kn sk, key_picked (cl_pib c) ci ls1 idn kn sk ->
     (let na := (ci_now ci + sec (to_i32 v * 3600))%Z in
      if i64_fits (sec (to_i32 v * 3600)) && i64_fits na then
        match gen_new E s (ci_ri ci) kn sk (ci_now ci) na with
        | (Ok (Some x), s1) => (up_req (Some s1) c4, NWait x WNew)
        | (Ok None, s1) => (up_req (Some s1) c4, NIdle)
        | (o, s1) => falls (up_req (Some s1) c4) o
        end
      else (c4, NUB)) = (c', nx) ->
     exists kn sk, key_picked (cl_pib c) ci ls1 idn kn sk /\ nx <> NExit 1 /\
      forall x w, nx = NWait x w -> w = WNew /\ has_applied E c' x s (ci_ri ci) kn sk (ci_now ci) (ci_now ci + sec (to_i32 v * 3600))).
  { intros c4 kn sk KP. cbv zeta. destruct (_ && _); [|intros Q; injection Q as <- <-; exists kn, sk; split; [exact KP|split; [discriminate|intros; discriminate]]].
    destruct (gen_new E s (ci_ri ci) kn sk (ci_now ci) _) as [o s1] eqn:G. intros H. exists kn, sk. split; [exact KP|].
    destruct o as [[x|]| | |]; injection H as <- <-; (split; [discriminate|]); try (intros; discriminate). intros x0 w Q. injection Q as <- <-. split; [reflexivity|]. exists s1. split; [exact G|reflexivity]. }
  destruct (pib_get idn (cl_pib c)) as [i|] eqn:PG.
  - pose proof (pib_get_name _ _ _ PG) as IDN. change (cl_newid (up_req (Some s) c)) with (cl_newid c).
    assert (KEY : forall c3 i2, cl_newid c3 = [] -> id_keys i2 = keys_shown ci i ->
      (let (ok, c4) := match cl_newid c3 with [] => capture_key c3 i2 k2 ls1 | _ :: _ => (match id_default i2 with Some d => find_key d i2 | None => None end, c3) end in
       match ok with
       | Some (kn, sk) => let na := (ci_now ci + sec (to_i32 v * 3600))%Z in
          if i64_fits (sec (to_i32 v * 3600)) && i64_fits na then
            match gen_new E s (ci_ri ci) kn sk (ci_now ci) na with
            | (Ok (Some x), s1) => (up_req (Some s1) c4, NWait x WNew)
            | (Ok None, s1) => (up_req (Some s1) c4, NIdle)
            | (o, s1) => falls (up_req (Some s1) c4) o
            end
          else (c4, NUB)
       | None => exits c4 1
       end) = (c', nx) ->
      (exists i0, Some i = Some i0 /\ ~ lower_of (typed ls1 0) (bs "new") /\ unsettled ls1 1 (below (length (keys_shown ci i0))) /\ nx = NExit 1) \/
      (exists kn sk, key_picked (cl_pib c) ci ls1 idn kn sk /\ nx <> NExit 1 /\
      forall x w, nx = NWait x w -> w = WNew /\ has_applied E c' x s (ci_ri ci) kn sk (ci_now ci) (ci_now ci + sec (to_i32 v * 3600)))).
    { intros c3 i2 N3 K2. rewrite N3. destruct (capture_key c3 i2 k2 ls1) as [ok c4] eqn:CK. apply key_line in CK as [CK _]. rewrite K2 in CK. destruct ok as [[kn sk]|].
      - intros H. right. apply (LAST c4 kn sk); [|exact H]. destruct CK as [[L Q]|(w & NL & NT)]; [injection Q as -> ->; exact (kp_new _ _ _ _ i PG L)|exact (kp_listed _ _ _ _ i w kn sk PG NL NT)].
      - intros Q. injection Q as <- <-. left. exists i. destruct CK as [A B]. auto. }
    destruct (id_default i) as [df|] eqn:DF.
    + apply KEY; [exact NI|]. unfold keys_shown. rewrite DF, app_nil_r. reflexivity.
    + apply KEY; [exact NI|]. apply keys_again; [rewrite IDN; reflexivity|exact DF].
  - cbn [id_default]. change (cl_newid (up_newid idn _)) with idn. destruct idn as [|a idn]; [contradiction|]. unfold find_key. cbn [id_keys find fst]. unfold k1 at 1. cbn [fst]. rewrite name_eqb_refl.
    intros H. right. exact (LAST _ _ _ (kp_identity _ _ _ _ PG) H).
Qed.

Section Steps.
  Context (E : env) (file : option ptree) (pb : pib).

  Lemma probe_picks : forall h c i p ci d c' x w, client_run E file pb h c (NWait i (WProbe p)) -> client_step E c (WProbe p) ci (CData d) = (c', NWait x w) ->
    good_reply E p d /\ exists names redirects, probe_reads (d_content d) names redirects /\
    ((exists full ca ls, redirects <> [] /\ picked (ci_lines ci) redirects full ls /\ w = WMeta full /\ c' = c /\ full_of ca full /\ discovers ca x) \/
     (exists n z ls j v kn sk, redirects = [] /\ picked (ci_lines ci) names (n, z) ls /\ w = WNew /\ settles ls 3 any j v /\ key_picked pb ci (skipn (S j) ls) n kn sk /\
        has_applied E c' x (request_init p RT_NEW (ci_ecdh ci) (ci_id0 ci)) (ci_ri ci) kn sk (ci_now ci) (ci_now ci + sec (to_i32 v * 3600)))).
  Proof.
    intros h c i p ci d c' x w H S. destruct (run_phase E file pb h c _ H) as [((_ & U2 & U3 & _) & _) _]. cbn [client_step] in S. unfold probe_cb in S.
    destruct (on_probe_response E d p) as [[names redirects]| | |] eqn:OP; try discriminate. apply probe_response_iff in OP as [GR PR]. split; [exact GR|]. exists names, redirects. split; [exact PR|].
    pose proof (proj2 (probe_decode_iff _ _ _) PR) as PD.
    assert (NEW : forall n z ls, picked (ci_lines ci) names (n, z) ls -> n <> [] -> run_new E c ci ls p n = (c', NWait x w) -> exists n z ls j v kn sk, picked (ci_lines ci) names (n, z) ls /\ w = WNew /\ settles ls 3 any j v /\ key_picked pb ci (skipn (Datatypes.S j) ls) n kn sk /\
        has_applied E c' x (request_init p RT_NEW (ci_ecdh ci) (ci_id0 ci)) (ci_ri ci) kn sk (ci_now ci) (ci_now ci + sec (to_i32 v * 3600))).
    { intros n z ls PK NE R. destruct (run_new_choice E c ci ls p n c' _ NE U3 R) as [(_ & _ & Q)|(j & v & SE & [(i0 & _ & _ & _ & Q)|(kn & sk & KP & _ & F)])]; try discriminate.
      destruct (F x w eq_refl) as [-> HA]. rewrite U2 in KP. exists n, z, ls, j, v, kn, sk. auto. }
    destruct redirects as [|f [|f2 rest]].
    - right. destruct names as [|[n z] [|n2 names]]; [discriminate| |].
      + destruct (NEW n z (ci_lines ci) (pd_only _ _) (probe_names _ _ _ n z PD (or_introl eq_refl)) S) as (n0 & z0 & ls0 & j & v & kn & sk & R). exists n0, z0, ls0, j, v, kn, sk. split; [reflexivity|exact R].
      + destruct (capture_one (length ((n, z) :: n2 :: names)) (ci_lines ci)) as [[k|] ls] eqn:CO; [|discriminate]. destruct (nth_error ((n, z) :: n2 :: names) k) as [[n1 z1]|] eqn:NT; [|discriminate].
        assert (PK : picked (ci_lines ci) ((n, z) :: n2 :: names) (n1, z1) ls) by (apply (picked_number _ _ _ _ _ CO); [cbn; lia|exact NT]).
        destruct (NEW n1 z1 ls PK (probe_names _ _ _ n1 z1 PD (nth_error_In _ _ NT)) S) as (n0 & z0 & ls0 & j & v & kn & sk & R). exists n0, z0, ls0, j, v, kn, sk. split; [reflexivity|exact R].
    - left. destruct (redirect_sends _ _ _ _ _ S) as (-> & -> & ca & F & D). exists f, ca, (ci_lines ci). split; [discriminate|]. split; [apply pd_only|]. auto.
    - left. destruct (all_cas (f :: f2 :: rest)); try discriminate. destruct (capture_one (length (f :: f2 :: rest)) (ci_lines ci)) as [[k|] ls] eqn:CO; [|discriminate]. destruct (nth_error (f :: f2 :: rest) k) as [f0|] eqn:NT; [|discriminate].
      destruct (redirect_sends _ _ _ _ _ S) as (-> & -> & ca & F & D). exists f0, ca, ls. split; [discriminate|]. split; [apply (picked_number _ _ _ _ _ CO); [cbn; lia|exact NT]|]. auto.
  Qed.
  Theorem picks_redirect : forall h c i p ci d c' x full, client_run E file pb h c (NWait i (WProbe p)) -> client_step E c (WProbe p) ci (CData d) = (c', NWait x (WMeta full)) ->
    c' = c /\ exists names redirects ca ls, probe_reads (d_content d) names redirects /\ picked (ci_lines ci) redirects full ls /\ full_of ca full /\ discovers ca x.
  Proof.
    intros h c i p ci d c' x full H S. destruct (probe_picks h c i p ci d c' x _ H S) as (_ & names & redirects & PR & [(f & ca & ls & _ & PK & Q & -> & F & D)|(n & z & ls & j & v & kn & sk & _ & _ & Q & _)]); [|discriminate].
    injection Q as ->. split; [reflexivity|]. exists names, redirects, ca, ls. auto.
  Qed.
  Theorem picks_name : forall h c i p ci d c' x, client_run E file pb h c (NWait i (WProbe p)) -> client_step E c (WProbe p) ci (CData d) = (c', NWait x WNew) ->
    exists names n z ls j v kn sk, probe_reads (d_content d) names [] /\ picked (ci_lines ci) names (n, z) ls /\ settles ls 3 any j v /\ key_picked pb ci (skipn (S j) ls) n kn sk /\
      has_applied E c' x (request_init p RT_NEW (ci_ecdh ci) (ci_id0 ci)) (ci_ri ci) kn sk (ci_now ci) (ci_now ci + sec (to_i32 v * 3600)).
  Proof.
    intros h c i p ci d c' x H S. destruct (probe_picks h c i p ci d c' x _ H S) as (_ & names & redirects & PR & [(f & ca & ls & _ & _ & Q & _)|(n & z & ls & j & v & kn & sk & -> & PK & _ & R)]); [discriminate|].
    exists names, n, z, ls, j, v, kn, sk. auto.
  Qed.

  (** The list of CAs. *)
  Theorem picks_ca : forall ci c x w, client_run E file pb [(ci, None)] c (NWait x w) -> w = WMeta [] /\ exists ca, discovers ca x /\
    ((lower_of (typed (ci_lines ci) 0) (bs "none") /\ o_of_uri E (typed (ci_lines ci) 1) = Some ca /\ cl_trusted c = None) \/
     (~ lower_of (typed (ci_lines ci) 0) (bs "none") /\ exists known v q, store_load E file = Ok known /\ number_line (typed (ci_lines ci) 0) v /\ nth_error known (N.to_nat v) = Some q /\
        ca = p_prefix q /\ cl_trusted c = p_cert q)).
  Proof.
    intros ci c x w H. inversion H as [ci0 c0 nx S Q1 Q2 Q3| |]; subst. unfold client_start in S. destruct (store_load E file) as [known| | |] eqn:SL; try discriminate. rewrite next_typed in S.
    assert (D : forall c0 n, discover c0 n [] = (c, NWait x w) -> w = WMeta [] /\ c = c0 /\ discovers n x).
    { intros c0 n. unfold discover. destruct (gen_discovery n) as [i| | |] eqn:G; try discriminate. intros Q. injection Q as <- <- <-. split; [reflexivity|]. split; [reflexivity|]. exact (discovery_made _ _ G). }
    destruct (bytes_eqb (to_lower (typed (ci_lines ci) 0)) (bs "none")) eqn:B.
    - apply bytes_eqb_eq, lower_iff in B. rewrite next_typed in S. cbn [fst] in S. rewrite typed_skip in S. cbn [Nat.add] in S. destruct (o_of_uri E (typed (ci_lines ci) 1)) as [n|] eqn:U; [|discriminate].
      destruct (D _ _ S) as (-> & -> & DI). split; [reflexivity|]. exists n. split; [exact DI|]. left. auto.
    - assert (NL : ~ lower_of (typed (ci_lines ci) 0) (bs "none")) by (intros Q; apply lower_iff in Q; rewrite Q, bytes_eqb_refl in B; discriminate).
      destruct (stoul (typed (ci_lines ci) 0)) as [v|] eqn:ST; [|discriminate]. destruct (_ <=? v); [discriminate|]. destruct (nth_error known (N.to_nat v)) as [q|] eqn:NT; [|discriminate].
      destruct (D _ _ S) as (-> & -> & DI). split; [reflexivity|]. exists (p_prefix q). split; [exact DI|]. right. split; [exact NL|]. exists known, v, q. split; [reflexivity|]. split; [apply number_read; exact ST|]. auto.
  Qed.

  (** Challenges. *)
  Lemma asks_short : forall ty st cst ks, step_asks ty st cst ks -> ks = [] \/ exists k, ks = [k].
  Proof. intros ty st cst ks H. destruct H; eauto. Qed.
  Lemma captured : forall s ls ctype req, requested_params ctype (rs_status s) (rs_cstatus s) = Some (Ok req) ->
    step_asks ctype (rs_status s) (rs_cstatus s) (map fst req) /\ fst (capture req ls) = map (fun k => (k, typed ls 0)) (map fst req).
  Proof.
    intros s ls ctype req R. assert (A : step_asks ctype (rs_status s) (rs_cstatus s) (map fst req)) by (apply asks_iff; exists req; split; [unfold select_challenge; rewrite R; reflexivity|reflexivity]).
    split; [exact A|]. destruct (asks_short _ _ _ _ A) as [Q|(k & Q)]; rewrite Q.
    - destruct req; [reflexivity|discriminate].
    - destruct req as [|[k0 v0] [|]]; try discriminate. cbn in Q. injection Q as ->. cbn [capture]. rewrite next_typed. reflexivity.
  Qed.
  Lemma run_challenge_sends : forall c s ci ls ctype c' x w, ivs s -> run_challenge E c s ci ls ctype = (c', NWait x w) ->
    w = WChallenge /\ exists s' els, cl_req c' = Some s' /\ rs_ctype s' = ctype /\ rs_status s' = rs_status s /\ sends_sealed E s' x els /\
      (rs_status s <> ST_BEFORE \/ ctype <> bs "email" -> exists ks, step_asks ctype (rs_status s) (rs_cstatus s) ks /\
        step_payload ctype (rs_status s) (rs_cstatus s) (map (fun k => (k, typed ls 0)) ks) els).
  Proof.
    intros c s ci ls ctype c' x w IV H. pose proof (run_challenge_shape E c s ci ls ctype c' _ IV H) as (s' & -> & _ & -> & CT & ST & ps & els & iv & kn & sk & (req & RQ & AP) & G & I12 & KP & X).
    split; [reflexivity|]. exists s', els. split; [reflexivity|]. split; [exact CT|]. split; [exact ST|].
    assert (SAME : rs_profile s' = rs_profile s /\ rs_id s' = rs_id s /\ rs_key s' = rs_key s).
    { unfold run_challenge, select_challenge in H. rewrite RQ in H. match type of H with match ?p with _ => _ end = _ => destruct p as [ps0| | |]; try discriminate end.
      destruct (gen_challenge E (upd_ctype ctype s) (ci_ri ci) ps0) as [o s3] eqn:GC. destruct o; try discriminate. injection H as <- _.
      destruct (gen_challenge_shape E (upd_ctype ctype s) (ci_ri ci) ps0 _ s3 (proj1 IV) GC) as (_ & _ & _ & -> & _). auto. }
    destruct SAME as (S1 & S2 & S3). split.
    - split; [subst x; unfold signed_interest; cbn [i_name]; rewrite S1, S2; exists (digest_comp E (CryptoFacts.sealed E (rs_key s) iv (rs_id s) (enc_tlvs els))); split; [reflexivity|]; rewrite <- app_assoc; reflexivity|].
      unfold CryptoFacts.sealed in X. destruct (o_aes_enc E (rs_key s) iv (rs_id s) (enc_tlvs els)) as [ct tag] eqn:AE. exists iv, ct, tag. split; [exact I12|]. rewrite S2, S3. split; [exact AE|]. subst x. reflexivity.
    - intros NE. destruct (captured s ls ctype req RQ) as [A C]. exists (map fst req). split; [exact A|]. destruct AP as [(Q1 & Q2 & _)|[_ ->]]; [destruct NE; contradiction|]. rewrite <- C. apply step_payload_iff. exact G.
  Qed.
  Lemma new_offers : forall s ri d chals s', on_new_response E s ri d = (Ok chals, s') -> exists ecdh salt id, reply_reads (ri_salt0 ri) (rs_id s) (d_content d) ecdh salt id chals.
  Proof.
    intros s ri d chals s' H. unfold on_new_response in H. destruct (check_reply E (rs_profile s) d); try discriminate. destruct (reply_decode (ri_salt0 ri) (rs_id s) (d_content d)) as [o [ecdh salt id ch]] eqn:R. cbn [rp_ecdh rp_salt rp_id rp_challenges] in H.
    destruct o as [[]| | |]; try discriminate. apply reply_decode_iff in R. match type of H with match ?q with _ => _ end = _ => destruct q; try discriminate end. injection H as <- _. exists ecdh, salt, id. exact R.
  Qed.
  Theorem picks_challenge : forall h c i ci d c' x, client_run E file pb h c (NWait i WNew) -> client_step E c WNew ci (CData d) = (c', NWait x WChallenge) ->
    exists s0 ecdh salt id chals s els, cl_req c = Some s0 /\ reply_reads (ri_salt0 (ci_ri ci)) (rs_id s0) (d_content d) ecdh salt id chals /\ cl_req c' = Some s /\ sends_sealed E s x els /\
      ((In (bs "email") chals /\ rs_ctype s = bs "email") \/
       (~ In (bs "email") chals /\ exists j v ks, settles (ci_lines ci) 3 (below (length chals)) j v /\ nth_error chals (N.to_nat v) = Some (rs_ctype s) /\
          step_asks (rs_ctype s) ST_BEFORE [] ks /\ step_payload (rs_ctype s) ST_BEFORE [] (map (fun k => (k, typed (skipn (S j) (ci_lines ci)) 0)) ks) els)).
  Proof.
    intros h c i ci d c' x H S. destruct (run_phase E file pb h c _ H) as [(s & EG & SB & CB & _) _]. pose proof EG as (RQ & IV & PC & _). cbn [client_step] in S. unfold new_cb in S. rewrite RQ in S.
    destruct (p_cert (rs_profile s)) as [k|] eqn:PK; [|contradiction]. destruct (on_new_response E s (ci_ri ci) d) as [o s1] eqn:ON.
    destruct (ClientFacts.new_reply E s (ci_ri ci) d k o s1 PK ON) as (R1 & R2 & R3 & R4 & _). assert (IV1 : ivs s1) by (split; [rewrite R3; apply IV|rewrite R4; apply IV]).
    destruct o as [chals| | |]; try discriminate. destruct (new_offers _ _ _ _ _ ON) as (ecdh & salt & id & RR). exists s, ecdh, salt, id, chals. clear ON. rename RR into ON. destruct chals as [|c0 chals]; [discriminate|].
    destruct (existsb (bytes_eqb K_EMAIL) (c0 :: chals)) eqn:EX.
    - destruct (run_challenge_sends _ _ _ _ _ _ _ _ IV1 S) as (_ & s' & els & Q1 & Q2 & _ & Q4 & _). exists s', els. split; [exact RQ|]. split; [exact ON|]. split; [exact Q1|]. split; [exact Q4|]. left.
      apply existsb_exists in EX as (y & IX & QX). apply bytes_eqb_eq in QX. subst y. split; [exact IX|exact Q2].
    - assert (NI : ~ In (bs "email") (c0 :: chals)).
      { intros IX. assert (existsb (bytes_eqb K_EMAIL) (c0 :: chals) = true); [|congruence]. apply existsb_exists. exists (bs "email"). split; [exact IX|apply bytes_eqb_refl]. }
      destruct (capture_index 3 (length (c0 :: chals)) (ci_lines ci)) as [[j|] ls] eqn:CI; [|discriminate]. destruct (nth_error (c0 :: chals) j) as [t|] eqn:NT; [|discriminate].
      apply index_settles in CI as (jj & SE & ->). destruct (run_challenge_sends _ _ _ _ _ _ _ _ IV1 S) as (_ & s' & els & Q1 & Q2 & _ & Q4 & Q5). exists s', els. split; [exact RQ|]. split; [exact ON|]. split; [exact Q1|]. split; [exact Q4|]. right. split; [exact NI|].
      assert (NE : t <> bs "email") by (intros ->; exact (NI (nth_error_In _ _ NT))). destruct (Q5 (or_intror NE)) as (ks & A & P). rewrite R1, R2, SB, CB in A, P.
      exists jj, (N.of_nat j), ks. rewrite Q2, Nat2N.id. auto.
  Qed.
  Theorem answers_challenge : forall h c i ci d c' x, client_run E file pb h c (NWait i WChallenge) -> client_step E c WChallenge ci (CData d) = (c', NWait x WChallenge) ->
    exists s0 s1 s els, cl_req c = Some s0 /\ on_challenge_response E s0 (ci_ri ci) d = (Ok tt, s1) /\ cl_req c' = Some s /\ sends_sealed E s x els /\ rs_ctype s = rs_ctype s0 /\ rs_ctype s1 = rs_ctype s0 /\
      (rs_status s1 <> ST_BEFORE \/ rs_ctype s1 <> bs "email" -> exists ks, step_asks (rs_ctype s1) (rs_status s1) (rs_cstatus s1) ks /\
         step_payload (rs_ctype s1) (rs_status s1) (rs_cstatus s1) (map (fun k => (k, typed (ci_lines ci) 0)) ks) els).
  Proof.
    intros h c i ci d c' x H S. destruct (run_phase E file pb h c _ H) as [(s & EG & _) _]. pose proof EG as (RQ & IV & PC & _). cbn [client_step] in S. unfold challenge_cb in S. rewrite RQ in S.
    destruct (on_challenge_response E s (ci_ri ci) d) as [o s1] eqn:ON. destruct o as [[]| | |]; try discriminate. destruct (rs_status s1 =? ST_SUCCESS); [discriminate|].
    destruct (p_cert (rs_profile s)) as [k|] eqn:PK; [|contradiction]. assert (IV1 : ivs s1) by apply (ClientFacts.challenge_reply E s (ci_ri ci) d k _ s1 PK IV ON).
    destruct (run_challenge_sends _ _ _ _ _ _ _ _ IV1 S) as (_ & s' & els & Q1 & Q2 & _ & Q4 & Q5). exists s, s1, s', els.
    assert (CT : rs_ctype s1 = rs_ctype s) by apply (ClientFacts.challenge_reply E s (ci_ri ci) d k _ s1 PK IV ON). split; [exact RQ|]. split; [exact ON|]. split; [exact Q1|]. split; [exact Q4|]. split; [congruence|]. split; [exact CT|exact Q5].
  Qed.

  (** Giving up. *)
  Theorem gives_up_exits : forall h c i w ci d, client_run E file pb h c (NWait i w) -> gives_up E pb c ci d w -> exists c', client_step E c w ci (CData d) = (c', NExit 1).
  Proof.
    intros h c i w ci d H G. destruct (run_phase E file pb h c _ H) as [PH _].
    assert (NEW : forall p ls n, untouched pb c -> n <> [] -> (unsettled ls 3 any \/ exists j v i0, settles ls 3 any j v /\ pib_get n pb = Some i0 /\ ~ lower_of (typed (skipn (S j) ls) 0) (bs "new") /\
       unsettled (skipn (S j) ls) 1 (below (length (keys_shown ci i0)))) -> exists c', run_new E c ci ls p n = (c', NExit 1)).
    { intros p ls n (_ & U2 & U3 & _) NE X. destruct (run_new E c ci ls p n) as [c' nx] eqn:R. exists c'. f_equal.
      destruct (run_new_choice E c ci ls p n c' nx NE U3 R) as [(_ & _ & Q)|(j & v & SE & [(i0 & _ & _ & _ & Q)|(kn & sk & KP & _)])]; [exact Q|exact Q|]. exfalso. destruct X as [X|(j' & v' & i0 & SE' & PG & NL & UN)]; [exact (settles_not _ _ _ _ _ SE X)|].
      destruct (settles_unique _ _ _ _ _ _ _ SE SE') as [<- <-]. rewrite U2 in KP. destruct KP as [Q|i1 Q L|i1 v1 kn sk Q NL1 NT]; [congruence|exact (NL L)|].
      assert (i1 = i0) by congruence. subst i1. apply (UN 0%nat v1); [lia|exact NL1|]. assert (X : nth_error (keys_shown ci i0) (N.to_nat v1) <> None) by congruence. apply nth_error_Some in X. unfold below. lia. }
    assert (PICK : forall p names n z ls, untouched pb c -> good_reply E p d -> probe_reads (d_content d) names [] -> picked (ci_lines ci) names (n, z) ls -> client_step E c (WProbe p) ci (CData d) = run_new E c ci ls p n /\ n <> []).
    { intros p names n z ls U GR PR PK. pose proof (proj2 (probe_decode_iff _ _ _) PR) as PD. assert (OP : on_probe_response E d p = Ok (names, [])) by (apply probe_response_iff; auto). cbn [client_step]. unfold probe_cb. rewrite OP.
      destruct names as [|[n0 z0] [|n2 names]].
      - inversion PK as [|l a v LT]; subst. cbn in LT. lia.
      - inversion PK as [a|l a v LT]; subst; [|cbn in LT; lia]. split; [reflexivity|]. exact (probe_names _ _ _ n z PD (or_introl eq_refl)).
      - assert (L2 : (1 < length ((n0, z0) :: n2 :: names))%nat) by (cbn; lia). destruct (picked_again _ _ _ _ _ L2 PK) as (k & CO & NT). rewrite CO, NT. split; [reflexivity|]. exact (probe_names _ _ _ n z PD (nth_error_In _ _ NT)). }
    destruct G as [p GR PR|p names redirects GR PR LT FU UN|p names GR PR LT UN|p names n z ls GR PR PK UN|p names n z ls j v i0 GR PR PK SE PG NL UN|s chals s' RQ ON NE UN].
    - exists c. cbn [client_step]. unfold probe_cb. rewrite (proj2 (probe_response_iff _ _ _ _ _) (conj GR PR)). reflexivity.
    - exists c. cbn [client_step]. unfold probe_cb. rewrite (proj2 (probe_response_iff _ _ _ _ _) (conj GR PR)). destruct redirects as [|f [|f2 rest]]; [cbn in LT; lia..|]. rewrite (all_full _ FU). destruct (one_unsettled _ _ UN) as (ls & ->). reflexivity.
    - exists c. cbn [client_step]. unfold probe_cb. rewrite (proj2 (probe_response_iff _ _ _ _ _) (conj GR PR)). destruct names as [|[n0 z0] [|n2 names]]; [cbn in LT; lia..|]. destruct (one_unsettled _ _ UN) as (ls & ->). reflexivity.
    - destruct PH as [U _]. destruct (PICK p names n z ls U GR PR PK) as [-> NN]. apply NEW; auto.
    - destruct PH as [U _]. destruct (PICK p names n z ls U GR PR PK) as [-> NN]. apply NEW; [exact U|exact NN|]. right. exists j, v, i0. auto.
    - cbn [client_step]. unfold new_cb. rewrite RQ, ON. destruct chals as [|c0 chals]; [eexists; reflexivity|]. destruct (existsb (bytes_eqb K_EMAIL) (c0 :: chals)) eqn:EX.
      + exfalso. apply existsb_exists in EX as (y & IX & QX). apply bytes_eqb_eq in QX. subst y. exact (NE IX).
      + destruct (capture_index 3 (length (c0 :: chals)) (ci_lines ci)) as [[j|] ls] eqn:CI; [|eexists; reflexivity]. exfalso. apply index_settles in CI as (jj & SE & _). exact (settles_not _ _ _ _ _ SE UN).
  Qed.
End Steps.
