(** ndn-cxx's limit on packets, around the CA server process of tools/ndncert-ca-server.cpp. *)
From Verif Require Export ServerProcess.
Local Open Scope N_scope.

Section WithConfig.
  Context (E : env) (g : ca_cfg).
  (** A Data packet as the CA encodes it (ca-module.cpp:147-151, 196-203, 358-365, 462-467, 523-532): Name, MetaInfo with the
      FreshnessPeriod in milliseconds and perhaps the FinalBlockId, Content, SignatureInfo with the type of the signature (one byte, whichever it
      is) and the KeyLocator, SignatureValue. *)
  Definition data_wire (d : data) : bytes :=
    enc_tlv (Tlv T_Data (enc_tlvs
      [name_tlv (d_name d);
       Tlv 20 (enc_tlvs (Tlv 25 (nni_enc (Z.to_N (d_fresh d / 1000000))) :: match d_final d with Some c => [Tlv 26 (enc_tlv c)] | None => [] end));
       Tlv T_Content (d_content d);
       Tlv 22 (enc_tlvs [Tlv 27 [x03]; Tlv 28 (name_wire (cf_keyloc g))]);
       Tlv 23 (d_sig d)])).
  (** What goes to the face for an output of the process; [None]: it goes to the repo. *)
  Definition face_wire (o : out) : option bytes :=
    match o with
    | OModule d | OServed (SProfile d) => Some (data_wire d)
    | OServed (SCert c) => Some (enc_tlv (cert_tlv E c))
    | ORepoProfile _ | ORepoCert _ => None
    end.
  (** [MAX_NDN_PACKET_SIZE] of ndn-cxx. *)
  Definition too_large (o : out) : bool := match face_wire o with Some w => 8800 <? blen w | None => false end.
  (** [Face::put] queues the packet; it is encoded and sent after the handler has returned, in the order of the calls; a packet that is too
      large throws [OversizedPacketError] then.  The writes to the repo have been made by the handler.
      (ndn-cxx is not in the sandbox; if it threw from within [Face::put], the packet would be missing and the process end all the same, but before the
      status callback.) *)
  Fixpoint sent (alive : bool) (os : list out) : list out :=
    match os with
    | [] => []
    | o :: os' =>
        match face_wire o with
        | None => o :: sent alive os'
        | Some _ => if alive && negb (too_large o) then o :: sent true os' else sent false os'
        end
    end.

  Context {S : Type} (ops : store_ops S) (repo : bool).
  (** [main] once more (ndncert-ca-server.cpp:120-164): the exception of the face leaves [Face::processEvents] too.  Interests that are
      handled between the call of [Face::put] and the exception are left out. *)
  Definition fstep (p : proc S) (ev : pevent) : option (proc S * list out) :=
    match pstep E g ops repo p ev with
    | Some (Running ca profile cache, os) =>
        if existsb too_large os then Some (Down (ca_store ca), sent true os) else Some (Running ca profile cache, os)
    | r => r
    end.
End WithConfig.
