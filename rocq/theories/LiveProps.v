(** C19: the registry finds exactly the registered servers and streams. *)
From Verif Require Import Base ListHeap LiveModel LiveSpec LiveProofs LiveProofs2 LiveProofs3 LiveProofs4.

Definition requests (os : list lop) : list request := map request_of os.
Definition answers sb tb (os : list lop) : list answer := map answer_of (snd (lrun sb tb live_init os)).

(** Whatever the bucket functions are: as long as names are C strings, no stream
    gets a name of more than 511 bytes, and a server is created only while at
    most one removed server waits to be replaced, every request of every history
    is answered as the table of LiveSpec says. *)
Theorem C19_registry : forall sb tb os,
  c_strings (requests os) -> short_streams (requests os) ->
  one_spare [] 0 (requests os) (answers sb tb os) ->
  right_answers [] (requests os) (answers sb tb os) = true.
Proof.
  intros sb tb os Hc Hs Ho. apply (run_all sb tb true os live_init [] 0); auto.
  - apply linv_init.
  - intros o Hi. assert (Hq : In (request_of o) (requests os)) by (apply in_map; auto). split.
    + intros nm Hn. eapply Hc; eauto.
    + destruct (request_of o) eqn:E; auto. intros _. eapply Hs. exact Hq.
Qed.

(** The way the RTMP, HTTP-FLV and HLS modules use it, that is without ever
    deleting a server, every history of C string names is answered right, long
    names included. *)
Theorem C19_no_deletion : forall sb tb os,
  c_strings (requests os) -> no_deletion (requests os) ->
  right_answers [] (requests os) (answers sb tb os) = true.
Proof.
  intros sb tb os Hc Hn. apply (run_all sb tb false os live_init [] 0); auto.
  - apply linv_init.
  - intros o Hi. assert (Hq : In (request_of o) (requests os)) by (apply in_map; auto). split.
    + intros nm Hx. eapply Hc; eauto.
    + destruct (request_of o) eqn:E; auto; [|discriminate]. exfalso. eapply Hn. exact Hq.
  - discriminate.
Qed.

Definition sA : list Z := [65].
Definition sB : list Z := [66].
Definition sC : list Z := [67].

(** Without the condition on removed servers the claim is false: two servers are
    removed, a third one is created in the place of the second, and its stale link
    makes the first one, which is free, visible again. *)
Theorem C19_reuse_refuted :
  exists sb tb os, c_strings (requests os) /\ short_streams (requests os) /\
    right_answers [] (requests os) (answers sb tb os) = false.
Proof.
  exists (fun _ => 0), (fun _ => 0),
    [LCreateServer sA; LCreateServer sB; LDeleteServer sA; LDeleteServer sB;
     LCreateServer sC; LFetchServer sA].
  split; [|split].
  - intros q nm Hq Hn. cbn in Hq.
    repeat (destruct Hq as [<-|Hq]; [cbn in Hn; destruct Hn as [<-|[]]; cbn; intros [X|[]]; discriminate|]).
    destruct Hq.
  - intros nm st Hq. cbn in Hq. repeat (destruct Hq as [Hq|Hq]; [discriminate|]). destruct Hq.
  - vm_compute. reflexivity.
Qed.

(** ... and then one object serves two server names at once: after it was found
    again through the stale link, the entry of A is still on the free list, and a
    new server C gets the same handle. *)
Theorem C19_two_names_refuted :
  exists sb tb os h, c_strings (requests os) /\
    (exists pre, os = pre ++ [LCreateServer sA; LCreateServer [68]]) /\
    forall l, answers sb tb os = l -> exists pre, l = pre ++ [Handle (Some h); Handle (Some h)].
Proof.
  exists (fun _ => 0), (fun _ => 0),
    ([LCreateServer sA; LCreateServer sB; LDeleteServer sA; LDeleteServer sB;
     LCreateServer sC] ++ [LCreateServer sA; LCreateServer [68]]), 0.
  split; [|split].
  - intros q nm Hq Hn. cbn in Hq.
    repeat (destruct Hq as [<-|Hq]; [cbn in Hn; destruct Hn as [<-|[]]; cbn; intros [X|[]]; discriminate|]).
    destruct Hq.
  - eexists. reflexivity.
  - intros l <-. exists [Handle (Some 0); Handle (Some 1); Done; Done; Handle (Some 1)].
    vm_compute. reflexivity.
Qed.

(** A stream name of more than 511 bytes is refused but counted: a server that
    was asked to create one is never removed. *)
Theorem C19_long_name_refuted :
  exists sb tb os, c_strings (requests os) /\ one_spare [] 0 (requests os) (answers sb tb os) /\
    right_answers [] (requests os) (answers sb tb os) = false.
Proof.
  exists (fun _ => 0), (fun _ => 0),
    [LCreateServer sA; LCreateStream sA (repeat 97 512); LDeleteServer sA; LFetchServer sA].
  split; [|split].
  - intros q nm Hq Hn. cbn [requests map request_of In] in Hq.
    destruct Hq as [<-|[<-|[<-|[<-|[]]]]]; cbn [request_names In] in Hn.
    + destruct Hn as [<-|[]]; intros [X|[]]; discriminate.
    + destruct Hn as [<-|[<-|[]]]; [intros [X|[]]; discriminate|].
      intros X. apply repeat_spec in X. discriminate.
    + destruct Hn as [<-|[]]; intros [X|[]]; discriminate.
    + destruct Hn as [<-|[]]; intros [X|[]]; discriminate.
  - vm_compute. repeat split; intros; discriminate.
  - vm_compute. reflexivity.
Qed.

(** A name with a 0 byte in it is never found again. *)
Theorem C19_nul_name_refuted :
  exists sb tb os, short_streams (requests os) /\ no_deletion (requests os) /\
    right_answers [] (requests os) (answers sb tb os) = false.
Proof.
  exists (fun _ => 0), (fun _ => 0), [LCreateServer [65; 0; 66]; LFetchServer [65; 0; 66]].
  split; [|split].
  - intros nm st Hq. cbn in Hq. repeat (destruct Hq as [Hq|Hq]; [discriminate|]). destruct Hq.
  - intros nm Hq. cbn in Hq. repeat (destruct Hq as [Hq|Hq]; [discriminate|]). destruct Hq.
  - vm_compute. reflexivity.
Qed.

(** Two servers in one bucket with streams; one is deleted while it has a stream,
    goes with its last stream, and is replaced.  The hypotheses of C19_registry
    hold and the answers are the expected ones. *)
Example C19_example :
  let os := [LCreateServer sA; LCreateServer sB; LCreateStream sA [120]; LCreateStream sB [120];
             LDeleteServer sA; LFetchStream sA [120]; LDeleteStream sA [120]; LFetchServer sA;
             LFetchStream sB [120]; LCreateServer sC; LCreateStream sC [121]; LFetchServer sB] in
  one_spare [] 0 (requests os) (answers (fun _ => 0) (fun _ => 0) os) /\
  answers (fun _ => 0) (fun _ => 0) os =
    [Handle (Some 0); Handle (Some 1); Handle (Some 0); Handle (Some 1); Done; Handle (Some 0); Done;
     Handle None; Handle (Some 1); Handle (Some 0); Handle (Some 0); Handle (Some 1)].
Proof. vm_compute. repeat split; intros; try discriminate; auto. Qed.

Print Assumptions C19_registry.
Print Assumptions C19_no_deletion.
Print Assumptions C19_reuse_refuted.
Print Assumptions C19_two_names_refuted.
Print Assumptions C19_long_name_refuted.
Print Assumptions C19_nul_name_refuted.
