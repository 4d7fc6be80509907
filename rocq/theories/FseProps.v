(** Properties of the MacOS file system events (fseventsd) reader. *)

From Verif Require Import Base BaseFacts CoreModel CoreProofs VarModel VarFacts SeqModel SeqSpec SeqFacts DictModel MemModel MemSpec MemFacts FseModel FseSpec FseProofs.

(** *** C64: FSEvents pages *)

(** The data of a file is read exactly if it consists of disk log streams whose sizes take in
    their events, the last event of a stream at least in part; what is read is all events of all
    streams in order, each in the format version of its stream. *)
Theorem C64_read : forall utf8 content l, is_bytes content ->
  (read_pages utf8 (S (length content)) content 0 = Done (Ok l) <->
   exists ps, l = file_values ps /\ Forall (page_ok utf8) ps /\ content = concat (map page_data ps)).
Proof.
  intros utf8 content l Hb. rewrite (pages_iff utf8 content Hb (S (length content)) 0 l); [rewrite zskipn_0 by lia; reflexivity|pose proof (len_nonneg content); lia|unfold len; lia].
Qed.
Print Assumptions C64_read.

(** Files of streams with the documented sizes are read into exactly their events. *)
Theorem C64_events : forall utf8 ps,
  Forall (fun p => (p_version p = 1 \/ p_version p = 2) /\ len (p_unknown p) = 4 /\ is_bytes (p_unknown p) /\
    Forall (fun e => event_ok utf8 (p_version p) e /\ is_bytes (e_path e)) (p_events p) /\ exact_size p /\ len (page_data p) < 2 ^ 32) ps ->
  let content := concat (map page_data ps) in
  read_pages utf8 (S (length content)) content 0 = Done (Ok (file_values ps)).
Proof.
  intros utf8 ps F content. apply C64_read.
  - unfold content. clear content. induction F as [|p ps (V & _ & U & E & _) _ IH]; [constructor|]. cbn [map concat]. apply Forall_app. split; [|exact IH].
    unfold page_data. apply Forall_app. split; [destruct V as [->| ->]; apply is_bytes_forallb; reflexivity|]. apply Forall_app. split; [exact U|].
    apply Forall_app. split; [apply le_enc_bytes|]. unfold events_data. induction E as [|e l [O B] _ IHe]; [constructor|]. cbn [map concat]. apply Forall_app. split; [|exact IHe].
    unfold event_data. apply Forall_app. split; [exact B|]. apply Forall_app. split; [apply is_bytes_forallb; reflexivity|].
    apply Forall_app. split; [apply le_enc_bytes|]. apply Forall_app. split; [apply le_enc_bytes|]. destruct (e_node e); [apply le_enc_bytes|constructor].
  - exists ps. split; [reflexivity|]. split; [|reflexivity]. eapply Forall_impl; [|exact F]. intros p (V & Lu & U & E & X & B). unfold exact_size in X.
    assert (Lp := len_page p Lu). pose proof (len_nonneg (events_data (p_events p))). unfold page_ok.
    split; [exact V|]. split; [exact Lu|]. split; [lia|]. split; [eapply Forall_impl; [|exact E]; intros e [O _]; exact O|]. split; [lia|].
    intros l e El. rewrite X, Lp, El. unfold events_data. rewrite map_app, concat_app, len_app. cbn [map concat]. rewrite app_nil_r. pose proof (len_event e). lia.
Qed.
Print Assumptions C64_events.

(** What is read determines the events. *)
Theorem C64_values : forall a b, event_values a = event_values b -> a = b.
Proof. exact event_values_inj. Qed.
Print Assumptions C64_values.

(** Reading ends on all data, with the events or with a ParseError. *)
Theorem C64_ends : forall utf8 content, is_bytes content ->
  (exists l, read_pages utf8 (S (length content)) content 0 = Done (Ok l)) \/ read_pages utf8 (S (length content)) content 0 = Done (Err ParseError).
Proof. intros utf8 content Hb. apply pages_end; [exact Hb|pose proof (len_nonneg content); lia|unfold len; lia]. Qed.
Print Assumptions C64_ends.

Definition case_pages : list page :=
  [mkpage 1 [0; 0; 0; 0] 40 [mkevent [47; 97] 7 2147483648 None; mkevent [] 8 1 None];
   mkpage 2 [1; 2; 3; 4] 35 [mkevent [98; 99] 18446744073709551615 5 (Some 12)];
   mkpage 2 [0; 0; 0; 0] 12 []].

Example C64_case : let content := concat (map page_data case_pages) in len content = 40 + 35 + 12 /\
  read_pages (fun _ => true) (S (length content)) content 0 =
  Done (Ok [(1, [MB [47; 97]; MI 7; MI 2147483648]); (1, [MB []; MI 8; MI 1]); (2, [MB [98; 99]; MI 18446744073709551615; MI 5; MI 12])]).
Proof. vm_compute. split; reflexivity. Qed.

(** The size of a stream is not compared with the end of its last event: an event that starts
    inside its stream and ends outside is accepted. *)
Theorem C64_overlap_refuted : exists p, page_ok (fun _ => true) p /\ ~ exact_size p /\
  read_pages (fun _ => true) (S (length (page_data p))) (page_data p) 0 = Done (Ok (file_values [p])).
Proof.
  exists (mkpage 1 [0; 0; 0; 0] 13 [mkevent [97] 7 1 None]). split; [|split; [vm_compute; discriminate|vm_compute; reflexivity]].
  unfold page_ok. cbn [p_version p_unknown p_size p_events]. split; [auto|]. split; [reflexivity|]. split; [lia|]. split.
  - constructor; [|constructor]. unfold event_ok. cbn. split; [intros [H|[]]; discriminate|]. repeat split; lia.
  - split; [vm_compute; discriminate|]. intros l e E. destruct l as [|? [|? l]]; cbn [app] in E; [vm_compute; reflexivity|discriminate|destruct l; discriminate].
Qed.
Print Assumptions C64_overlap_refuted.
