(** Sample cases for the possession challenge's parameters and errors. *)
From Verif Require Export FillFacts SessionWitness.
Local Open Scope N_scope.

Definition fw_nothing : list tlv := [Tlv T_SelectedChallenge (bs "possession"); Tlv T_ParameterKey (bs "name"); Tlv T_ParameterValue (bs "bob")].
Lemma fw_none : forall k w, k = bs "issued-cert" \/ k = bs "proof" -> ~ pair_in fw_nothing k w.
Proof.
  intros k w K (a1 & a2 & Q). unfold fw_nothing in Q.
  destruct a1 as [|t1 [|t2 [|t3 [|]]]]; try discriminate; cbn [app] in Q; injection Q; intros; subst; try discriminate. destruct K as [K|K]; vm_compute in K; discriminate.
Qed.
Lemma fw_wf : wf_cert x_cred.
Proof. exact (l_cert_wf toy (laws_codec _ toy_laws) (o_cert_wire toy x_cred) x_cred ltac:(vm_compute; reflexivity)). Qed.
(** A credential that vouches for itself. *)
Definition fw_self : cert := x_self (bs "mallory") [gc (bs "org"); c_KEY; gc (bs "m")] 0 1000000000.
Lemma fw_self_untrusted : ~ trusted toy (cf_chal w_cfg) fw_self.
Proof.
  intros (anchors & an & loc & A & I & K & N & _). vm_compute in A. injection A as <-. cbn [In] in I. destruct I as [<-|[]].
  vm_compute in K. injection K as <-. destruct N as [N|N]; vm_compute in N; discriminate.
Qed.
