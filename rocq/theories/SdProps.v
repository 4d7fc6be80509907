(** C95: the log entries of SimpleDump and StateDump chunks. *)

From Verif Require Import Base BaseFacts SeqSpec CoreModel StrModel FmtModel FmtSpec DictModel RdModel TvModel TvSpec AulModel CatModel CatSpec CatProofs CatProps FhModel FhSpec FhProofs FhProps FvModel ImModel ImSpec ImProofs ImProps LeModel LeSpec LeProofs LeProps SdModel SdSpec SdProofs.
From Coq Require String.
Import String.StringSyntax.

(** *** C95: dumps *)

(** Tracepoints and dumps, one after the other with a file object that has read nothing: each log entry
    has what is stored, and only the tracepoints before it can have an effect on it. *)
Theorem C95_history v strict l es st : Forall stored_source l -> log_each v strict l (mkca [] [] []) = Ok (es, st) ->
  length es = length l /\
  forall n x e, nth_error l n = Some x -> nth_error es n = Some e -> made_of v strict (fun q => exists y, In y (firstn (S n) l) /\ asked_by y q) x e.
Proof.
  intros S H. destruct (log_each_ok v strict l _ _ es st S (inv_start _ _) H) as (L & _ & N). split; [exact L|]. intros n x e A B. eapply made_of_mono; [|exact (N n x e A B)].
  intros q [[]|X]. exact X.
Qed.
Print Assumptions C95_history.

(** The outcome of a SimpleDump, whatever was read before: the log entry of what is stored, or the
    exception of what is wrong with it. *)
Theorem C95_simple v strict l es st cat data : Forall stored_source l -> log_each v strict l (mkca [] [] []) = Ok (es, st) -> loaded cat -> is_bytes data ->
  (forall e, (exists st', simple_entry v strict cat data st = Ok (e, st')) <-> simple_made v strict cat data e) /\
  (forall x, simple_entry v strict cat data st = Err x <-> simple_fails v strict cat data x).
Proof.
  intros S H L Hb. destruct (log_each_ok v strict l _ _ es st S (inv_start _ _) H) as (_ & I & _). pose proof (simple_ok v strict cat data _ st L Hb I) as O.
  destruct (simple_entry v strict cat data st) as [[e st']|x].
  - destruct O as [M _]. split; [intros e'; split; [intros (st2 & X); assert (e' = e) as -> by congruence; exact M|intros M'; exists st'; rewrite (simple_made_fun _ _ _ _ _ _ L Hb M M'); reflexivity]|].
    intros y. split; [discriminate|]. intros F. destruct (simple_fails_not _ _ _ _ _ _ L Hb F M).
  - split; [intros e'; split; [intros (st2 & X); discriminate X|intros M'; destruct (simple_fails_not _ _ _ _ _ _ L Hb O M')]|].
    intros y. split; [intros X; assert (y = x) as -> by congruence; exact O|intros F; rewrite (simple_fails_fun _ _ _ _ _ _ L Hb O F); reflexivity].
Qed.
Print Assumptions C95_simple.

Theorem C95_state v strict l es st cat data : Forall stored_source l -> log_each v strict l (mkca [] [] []) = Ok (es, st) -> loaded cat -> is_bytes data ->
  (forall e, (exists st', state_entry v strict cat data st = Ok (e, st')) <-> state_made v strict cat data e) /\
  (forall x, state_entry v strict cat data st = Err x <-> state_fails v strict cat data x).
Proof.
  intros S H L Hb. destruct (log_each_ok v strict l _ _ es st S (inv_start _ _) H) as (_ & I & _). pose proof (state_ok v strict cat data _ st L Hb I) as O.
  destruct (state_entry v strict cat data st) as [[e st']|x].
  - destruct O as [M _]. split; [intros e'; split; [intros (st2 & X); assert (e' = e) as -> by congruence; exact M|intros M'; exists st'; rewrite (state_made_fun _ _ _ _ _ _ L Hb M M'); reflexivity]|].
    intros y. split; [discriminate|]. intros F. destruct (state_fails_not _ _ _ _ _ _ L Hb F M).
  - split; [intros e'; split; [intros (st2 & X); discriminate X|intros M'; destruct (state_fails_not _ _ _ _ _ _ L Hb O M')]|].
    intros y. split; [intros X; assert (y = x) as -> by congruence; exact O|intros F; rewrite (state_fails_fun _ _ _ _ _ _ L Hb O F); reflexivity].
Qed.
Print Assumptions C95_state.

(** Dumps of the process 7\@9 of the test catalog, whose main executable has the UUID 01…01. *)
Definition dump_fs (p : list str) : option bytes := if list_eqb (concat p) (concat (repeat (s2z "01"%string) 16)) then Some case_text else None.
Definition ascii (d : bytes) : option str := if forallb (fun b => b <? 128) d then Some d else None.
Definition dump_v : environment := mkev ascii dump_fs (repeat 7 16) (fun t => t * 2) (fun n => if list_eqb n (s2z "lib:kind"%string) then Some shows else None).
Definition dump_cat (main : Z) : option cat_state := match load_catalog Some (test_catalog main [104; 105]) 0 with Ok cs => Some cs | Err _ => None end.
Definition field (n : nat) (t : bytes) : bytes := firstn n (t ++ repeat 0 n).
Definition simple_data (upper log : Z) (sub message : bytes) : bytes :=
  le_enc 8 upper ++ le_enc 4 9 ++ [14; log; 0; 0] ++ le_enc 8 1000 ++ le_enc 8 77 ++ le_enc 8 0x1234 ++ repeat 5 16 ++ repeat 6 16 ++ le_enc 4 0 ++ le_enc 4 (len sub) ++ le_enc 4 (len message) ++ sub ++ message.
Definition state_data (type : Z) (library decoder title data : bytes) : bytes :=
  le_enc 8 7 ++ le_enc 4 9 ++ [14; 0; 0; 0] ++ le_enc 8 1000 ++ le_enc 8 (2 ^ 63 + 4) ++ repeat 5 16 ++ le_enc 4 type ++ le_enc 4 (len data) ++ field 64 library ++ field 64 decoder ++ field 64 title ++ data.

(** A library name that is no UTF-8 is an exception other than ParseError, though a title that is not
    is a ParseError. *)
Theorem C95_library_refuted :
  state_entry dump_v true (dump_cat 0) (state_data 3 [200] (s2z "kind"%string) (s2z "t"%string) [1]) (mkca [] [] []) = Err UnicodeDecodeError /\
  state_entry dump_v true (dump_cat 0) (state_data 3 (s2z "lib"%string) (s2z "kind"%string) [200] [1]) (mkca [] [] []) = Err ParseError.
Proof. vm_compute. split; reflexivity. Qed.
Print Assumptions C95_library_refuted.

(** A state whose data has another type has an empty message, whatever its title and data. *)
Theorem C95_title_refuted v strict cat data st s d rest e st' : is_bytes data -> state_bytes (ev_utf8 v) s d -> data = d ++ rest -> st_type s <> 3 ->
  state_entry v strict cat data st = Ok (e, st') -> du_message e = [].
Proof.
  intros Hb B E T H. unfold state_entry in H. destruct (0 <? len data); cbn [guard bind] in H; [|discriminate].
  assert (R : rd_data (rd_statedump (ev_utf8 v)) data = Ok s) by (apply (RdFacts.rd_data_iff _ _ _ _ (reads_state _) Hb); exists d, rest; auto). rewrite R in H. cbn [bind] in H.
  destruct (dump_process _ _ _ _) as [k|]; cbn [bind] in H; [|discriminate]. unfold state_message in H. destruct (Z.eqb_spec (st_type s) 3); [contradiction|]. cbn [bind] in H.
  destruct (process_values v k st) as [[[image path] st2]|]; cbn [bind] in H; [|discriminate]. injection H as <- _. reflexivity.
Qed.
Print Assumptions C95_title_refuted.

(** A process without main executable has no dumps: an AttributeError, in both modes. *)
Theorem C95_main_refuted strict :
  simple_entry dump_v strict (dump_cat (-1)) (simple_data 7 0 [] []) (mkca [] [] []) = Err AttributeError /\
  state_entry dump_v strict (dump_cat (-1)) (state_data 1 [] [] [] []) (mkca [] [] []) = Err AttributeError.
Proof. destruct strict; vm_compute; split; reflexivity. Qed.
Print Assumptions C95_main_refuted.

(** A simple dump, states with a decoder, with an unknown decoder and with other data; without process;
    without data; and too short. *)
Example C95_case : loaded (dump_cat 0) /\ (exists cs, dump_cat 0 = Some cs) /\
  (match log_each dump_v true [Simple (dump_cat 0) (simple_data 7 0x10 (s2z "sub"%string ++ [0]) (s2z "text"%string ++ [0; 9]) ++ [0; 0]);
                              State (dump_cat 0) (state_data 3 (s2z "lib"%string) (s2z "kind"%string) (s2z "title"%string) [1; 2]);
                              State (dump_cat 0) (state_data 3 (s2z "lib"%string) (s2z "other"%string) (s2z "title"%string) [1; 2]);
                              State (dump_cat 0) (state_data 1 [] [] (s2z "title"%string) [1; 2])] (mkca [] [] []) with
   | Ok ([LDump a; LDump b; LDump c; LDump d], _) =>
       a = mkdu None (repeat 5 16, 0x1234) (repeat 7 16) (s2z "text"%string) (s2z "logEvent"%string) 1000 (Some (s2z "Error"%string)) 500 (Some (repeat 1 16)) (du_path a)
             (Some (s2z "sub"%string)) (repeat 5 16) (Some 0x1234) (Some 77) 2000 0 /\ du_path a <> None /\
       b = mkdu (Some 4) (repeat 5 16, 0) (repeat 7 16) (s2z "title"%string ++ [10] ++ s2z "12"%string) (s2z "stateEvent"%string) 1000 None 500 (Some (repeat 1 16)) (du_path a)
             None (repeat 5 16) None None 2000 0 /\
       du_message c = s2z "title"%string ++ [10] ++ s2z "<decode: unsupported decoder: lib:other>"%string /\ du_message d = []
   | _ => False
   end) /\
  simple_entry dump_v true (dump_cat 0) (simple_data 8 0 [] []) (mkca [] [] []) = Err ParseError /\
  (match simple_entry dump_v false (dump_cat 0) (simple_data 8 0 [] []) (mkca [] [] []) with Ok (e, _) => du_pid e = 0 /\ du_image e = None | Err _ => False end) /\
  simple_entry dump_v true (dump_cat 0) [] (mkca [] [] []) = Err ValueError /\
  simple_entry dump_v true (dump_cat 0) (removelast (simple_data 7 0 [] [65])) (mkca [] [] []) = Err ParseError.
Proof.
  split; [unfold dump_cat; exists Some, (test_catalog 0 [104; 105]), 0; split; [apply is_bytes_forallb; vm_compute; reflexivity|split; [lia|vm_compute; reflexivity]]|].
  split; [eexists; vm_compute; reflexivity|]. vm_compute. repeat split. congruence.
Qed.
