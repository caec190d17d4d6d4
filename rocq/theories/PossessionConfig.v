(** The trust anchors of the possession challenge: [ChallengePossession::parseConfigFile]
    (src/challenge/challenge-possession.cpp:52-80).  The handler calls it whenever it has no anchors yet (lines 86-88);
    the file is taken not to change while the CA runs. *)
From Verif Require Export JsonText Challenge.
Local Open Scope N_scope.

(** The loop over the list (challenge-possession.cpp:71-79): an entry whose certificate cannot be loaded is skipped. *)
Definition anchor_items (E : env) (l : list (bytes * ptree)) : list cert :=
  flat_map (fun kv => match io_load E (pt_get (bs "certificate") [] (snd kv)) with Some c => [c] | None => [] end) l.
(** [parseConfigFile] (challenge-possession.cpp:52-80).  [None]: the file cannot be read as JSON.  [get_child] throws if there is no "anchor-list". *)
Definition possession_anchors (E : env) (file : option ptree) : res (list cert) :=
  do j <- of_opt file;
  match pt_children j with
  | [] => Exn
  | _ :: _ => match pt_child (bs "anchor-list") j with
              | None => Exn
              | Some t => Ok (anchor_items E (pt_children t))
              end
  end.
