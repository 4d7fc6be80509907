(** Proofs about the JSON output of scripts/unified_logging.py. *)

From Verif Require Import Base BaseFacts CoreModel StrModel StrFacts HpModel HpProofs UlModel UlSpec.
From Coq Require Import Permutation.
From Coq Require String.
Import String.StringSyntax.

(** ** Strings *)

Lemma jchars_app a s b t : jchars a s -> jchars b t -> jchars (a ++ b) (s ++ t).
Proof.
  induction 1 as [|c a s H1 H2 H3 _ IH|e c a s I _ IH|h c a s L F Ec _ IH]; intros Hb; cbn [app]; [exact Hb| | |].
  - now constructor; auto.
  - now constructor; auto.
  - rewrite <- app_assoc. now constructor; auto.
Qed.

Lemma jchars_plain s : plain s -> jchars s s.
Proof. induction 1 as [|c s (H1 & H2 & H3) _ IH]; constructor; assumption. Qed.

Definition plainb (s : str) : bool := forallb (fun c => (32 <=? c) && negb (c =? 34) && negb (c =? 92)) s.
Lemma plainb_ok s : plainb s = true -> plain s.
Proof.
  unfold plainb, plain. rewrite forallb_forall, Forall_forall. intros F c I. specialize (F c I). apply andb_prop in F as [F F2]. apply andb_prop in F as [F1 F3].
  apply Z.leb_le in F1. apply negb_true_iff, Z.eqb_neq in F2, F3. auto.
Qed.
Lemma jchars_plainb s : plainb s = true -> jchars s s.
Proof. intros H. now apply jchars_plain, plainb_ok. Qed.

Lemma escape_jchars s : Forall (fun c => 32 <= c) s -> jchars (escape s) s.
Proof.
  induction 1 as [|c s H _ IH]; [constructor|]. unfold escape. cbn [flat_map existsb]. destruct (Z.eqb_spec c 92) as [->|N1]; [cbn; apply (jc_escape 92 92); [cbn; auto|exact IH]|].
  destruct (Z.eqb_spec c 47) as [->|N2]; [cbn; apply (jc_escape 47 47); [cbn; auto|exact IH]|]. destruct (Z.eqb_spec c 34) as [->|N3]; [cbn; apply (jc_escape 34 34); [cbn; auto|exact IH]|].
  cbn. constructor; assumption.
Qed.

(** Replacing characters one after the other. *)
Lemma replace_app c r a b : replace c r (a ++ b) = replace c r a ++ replace c r b.
Proof. apply flat_map_app. Qed.

Lemma lines_escape_cons c s : lines_escape (c :: s) = lines_escape [c] ++ lines_escape s.
Proof. unfold lines_escape, escape. cbn [flat_map]. rewrite app_nil_r, !replace_app. reflexivity. Qed.

Lemma lines_escape_jchars s : printable s -> jchars (lines_escape s) s.
Proof.
  induction 1 as [|c s H _ IH]; [constructor|]. rewrite lines_escape_cons. change (c :: s) with ([c] ++ s). apply jchars_app; [|exact IH]. clear -H.
  unfold lines_escape, escape. cbn [flat_map existsb].
  destruct (Z.eqb_spec c 92) as [->|N1]; [cbn; apply (jc_escape 92 92); [cbn; auto|constructor]|].
  destruct (Z.eqb_spec c 47) as [->|N2]; [cbn; apply (jc_escape 47 47); [cbn; auto|constructor]|].
  destruct (Z.eqb_spec c 34) as [->|N3]; [cbn; apply (jc_escape 34 34); [cbn; auto|constructor]|].
  cbn [app orb replace flat_map]. destruct (Z.eqb_spec c 10) as [->|N4]; [cbn; apply (jc_escape 110 10); [cbn; tauto|constructor]|].
  cbn [app replace flat_map]. destruct (Z.eqb_spec c 9) as [->|N5]; [cbn; apply (jc_escape 116 9); [cbn; tauto|constructor]|].
  cbn. constructor; [lia|assumption|assumption|constructor].
Qed.

Lemma sender_text_cons c s : sender_text (c :: s) = sender_text [c] ++ sender_text s.
Proof. change (c :: s) with ([c] ++ s). unfold sender_text. rewrite !replace_app. reflexivity. Qed.

Lemma sender_jchars s : Forall (fun c => 32 <= c /\ c <> 92) s -> jchars (sender_text s) s.
Proof.
  induction 1 as [|c s (H & H') _ IH]; [constructor|]. rewrite sender_text_cons. change (c :: s) with ([c] ++ s). apply jchars_app; [|exact IH]. clear -H H'.
  unfold sender_text. cbn [replace flat_map].
  destruct (Z.eqb_spec c 34) as [->|N1]; [cbn; apply (jc_escape 34 34); [cbn; auto|constructor]|].
  cbn [app replace flat_map]. destruct (Z.eqb_spec c 47) as [->|N5]; [cbn; apply (jc_escape 47 47); [cbn; tauto|constructor]|].
  cbn. constructor; [lia|assumption|assumption|constructor].
Qed.

(** ** Numbers *)

Lemma dig_fold l : forall acc, Forall (fun d => 0 <= d < 10) l -> fold_left (fun a c => 10 * a + (c - 48)) (map digit_char l) acc = dig_value 10 l acc.
Proof.
  induction l as [|d l IH]; intros acc F; [reflexivity|]. inversion F as [|? ? H F']; subst. cbn [map fold_left dig_value]. rewrite IH by exact F'. unfold dig_value. f_equal.
  unfold digit_char. destruct (Z.ltb_spec d 10); lia.
Qed.

Lemma digits_jnat n : 0 <= n -> jnat (map digit_char (digits 10 n)) n.
Proof.
  intros Hn. destruct (digits_spec 10 n ltac:(lia) Hn) as (F & V & _). destruct (digits_head 10 n ltac:(lia) Hn) as (h & t & E & Hh).
  destruct (Z.eq_dec n 0) as [->|Nz]; [apply jn_zero|]. rewrite E in *. inversion F as [|? ? Fh Ft]; subst. cbn [map]. apply jn_digits.
  - unfold digit_char. destruct (Z.ltb_spec h 10); lia.
  - apply Forall_map. eapply Forall_impl; [|exact Ft]. cbn. intros d Hd. unfold digit_char. destruct (Z.ltb_spec d 10); lia.
  - change (digit_char h :: map digit_char t) with (map digit_char (h :: t)). rewrite dig_fold by exact F. now symmetry.
Qed.

Lemma fmt_d_jnum n : jnum (fmt_d n) n.
Proof.
  unfold fmt_d, fmt_int. replace (Z.to_nat (0 - _ - _)) with O by (unfold len; lia). cbn [repeat app]. destruct (Z.ltb_spec n 0).
  - replace n with (- Z.abs n) at 2 by lia. apply jn_neg, digits_jnat. lia.
  - cbn [app]. replace (Z.abs n) with n by lia. apply jn_pos, digits_jnat. lia.
Qed.

(** ** Lines *)

Lemma white_app a b : white a -> white b -> white (a ++ b).
Proof. intros. now apply Forall_app. Qed.
Lemma white_nil : white [].
Proof. constructor. Qed.
Definition whiteb (s : str) : bool := forallb (fun c => existsb (Z.eqb c) [32; 9; 10; 13]) s.
Lemma whiteb_ok s : whiteb s = true -> white s.
Proof.
  unfold whiteb, white. rewrite forallb_forall, Forall_forall. intros F c I. specialize (F c I). apply existsb_exists in F as (x & Ix & Ex). apply Z.eqb_eq in Ex. now subst.
Qed.

Lemma member_pad a t d n v : white a -> member t n v -> white d -> member (a ++ t ++ d) n v.
Proof.
  intros Wa M Wd. inversion M as [a' k n' b c t' v' d' Ha Hk Hb Hc Ht Hd]; subst.
  replace (a ++ (a' ++ [34] ++ k ++ [34] ++ b ++ [58] ++ c ++ t' ++ d') ++ d) with ((a ++ a') ++ [34] ++ k ++ [34] ++ b ++ [58] ++ c ++ t' ++ (d' ++ d)) by (rewrite !app_assoc; reflexivity).
  constructor; auto using white_app.
Qed.

Lemma key_member name t v : plainb (s2z name) = true -> json t v -> member (key name ++ t) (N name) v.
Proof.
  intros P J. unfold key, N.
  replace ((s2z "  """ ++ s2z name ++ s2z """ : ") ++ t) with ([32; 32] ++ [34] ++ s2z name ++ [34] ++ [32] ++ [58] ++ [32] ++ t ++ []) by (rewrite app_nil_r, <- !app_assoc; reflexivity).
  constructor; try (now apply whiteb_ok); try assumption. now apply jchars_plainb.
Qed.

(** Blocks of lines that end with a comma. *)
Inductive comma : list str -> list (str * jv) -> Prop :=
| co_nil : comma [] []
| co_block b t n v ls ms : b <> [] -> join [10] b = t ++ [44] -> member t n v -> comma ls ms -> comma (b ++ ls) ((n, v) :: ms).

Lemma comma_app a m b m' : comma a m -> comma b m' -> comma (a ++ b) (m ++ m').
Proof. induction 1 as [|b0 t n v ls ms B J M _ IH]; intros H; [exact H|]. rewrite <- app_assoc. cbn [app]. econstructor; eauto. Qed.

Lemma comma_line l t n v : l = t ++ [44] -> member t n v -> comma [l] [(n, v)].
Proof. intros -> M. change [t ++ [44]] with ([t ++ [44]] ++ []). econstructor; [discriminate|reflexivity|exact M|constructor]. Qed.

Lemma comma_text name s s' : plainb (s2z name) = true -> jchars s s' -> comma [text_line name s] [(N name, JStr s')].
Proof.
  intros P J. eapply comma_line; [|apply (key_member name ([34] ++ s ++ [34]) (JStr s') P); constructor; exact J]. unfold text_line. rewrite <- !app_assoc. reflexivity.
Qed.
Lemma comma_num name n : plainb (s2z name) = true -> comma [num_line name n] [(N name, JNum n)].
Proof. intros P. eapply comma_line; [|apply (key_member name (fmt_d n) (JNum n) P); constructor; apply fmt_d_jnum]. unfold num_line. rewrite app_assoc. reflexivity. Qed.

Lemma join_cons (sep x : str) l : l <> [] -> join sep (x :: l) = x ++ sep ++ join sep l.
Proof. destruct l; [congruence|reflexivity]. Qed.
Lemma join_app (sep : str) a b : a <> [] -> b <> [] -> join sep (a ++ b) = join sep a ++ sep ++ join sep b.
Proof.
  induction a as [|x a IH]; intros Ha Hb; [congruence|]. destruct a as [|y a]; [cbn [app]; now rewrite join_cons|]. cbn [app] in *. rewrite !(join_cons sep x) by discriminate.
  rewrite IH by (discriminate || assumption). unfold str. rewrite <- !app_assoc. reflexivity.
Qed.

Lemma comma_members ls ms last n v : comma ls ms -> member last n v -> members ([10] ++ join [10] (ls ++ [last]) ++ [10]) (ms ++ [(n, v)]).
Proof.
  induction 1 as [|b t n' v' ls ms B J M _ IH]; intros L.
  - cbn [app join]. constructor. apply (member_pad [10] last [10]); try assumption; now apply whiteb_ok.
  - specialize (IH L). rewrite <- app_assoc, join_app, J; [|assumption|now destruct ls]. cbn [app].
    replace (10 :: ((t ++ [44]) ++ 10 :: join [10] (ls ++ [last])) ++ [10]) with (([10] ++ t ++ []) ++ [44] ++ ([10] ++ join [10] (ls ++ [last]) ++ [10])).
    + constructor; [|exact IH]. apply member_pad; [now apply whiteb_ok|exact M|apply white_nil].
    + rewrite app_nil_r, <- !app_assoc. cbn [app]. reflexivity.
Qed.

(** ** Backtraces *)

Lemma elements_eq a b l : a = b -> elements b l -> elements a l.
Proof. now intros ->. Qed.

Section Lines.
Variable w : tools.
Hypothesis W : tools_ok w.

Lemma uuid_jchars u : jchars (t_uuid w u) (t_uuid w u).
Proof. apply jchars_plain, W. Qed.

(** The members of a frame between the braces. *)
Lemma frame_members f : members ([10] ++ join [10] (frame_lines w f) ++ [10] ++ s2z "      ") [(N "imageOffset", JNum (snd f)); (N "imageUUID", JStr (t_uuid w (fst f)))].
Proof.
  unfold frame_lines. cbn [join].
  replace ([10] ++ ((s2z "        ""imageOffset"" : " ++ fmt_d (snd f) ++ [44]) ++ [10] ++ s2z "        ""imageUUID"" : """ ++ t_uuid w (fst f) ++ [34]) ++ [10] ++ s2z "      ")
    with (([10; 32; 32; 32; 32; 32; 32; 32; 32] ++ [34] ++ N "imageOffset" ++ [34] ++ [32] ++ [58] ++ [32] ++ fmt_d (snd f) ++ []) ++ [44] ++
          ([10; 32; 32; 32; 32; 32; 32; 32; 32] ++ [34] ++ N "imageUUID" ++ [34] ++ [32] ++ [58] ++ [32] ++ ([34] ++ t_uuid w (fst f) ++ [34]) ++ [10; 32; 32; 32; 32; 32; 32])).
  - constructor; [|constructor]; constructor; try (now apply whiteb_ok); try (now apply jchars_plainb); constructor; [apply fmt_d_jnum|apply uuid_jchars].
  - rewrite app_nil_r, <- !app_assoc. reflexivity.
Qed.

Lemma frames_elements l : forall f, elements ([10] ++ s2z "      {" ++ [10] ++ join [10] (frame_lines w f ++ frames_lines w l ++ [s2z "      }"]) ++ [10] ++ s2z "    ") (map (shown_frame w) (f :: l)).
Proof.
  induction l as [|g l IH]; intros f.
  - cbn [frames_lines map]. rewrite join_app by (unfold frame_lines; discriminate).
    apply elements_eq with (b := [10; 32; 32; 32; 32; 32; 32] ++ ([123] ++ ([10] ++ join [10] (frame_lines w f) ++ [10] ++ s2z "      ") ++ [125]) ++ [10; 32; 32; 32; 32]).
    + unfold str. rewrite <- ?app_assoc. reflexivity.
    + constructor; [now apply whiteb_ok| |now apply whiteb_ok]. apply js_obj, frame_members.
  - specialize (IH g). change (map (shown_frame w) (f :: g :: l)) with (shown_frame w f :: map (shown_frame w) (g :: l)).
    cbn [frames_lines]. rewrite <- (app_assoc [s2z "      },"; s2z "      {"]), <- (app_assoc (frame_lines w g)). rewrite join_app by (unfold frame_lines; discriminate).
    rewrite (join_app [10] [s2z "      },"; s2z "      {"]) by (unfold frame_lines; discriminate).
    set (R := join [10] (frame_lines w g ++ frames_lines w l ++ [s2z "      }"])) in *.
    apply elements_eq with (b := ([10; 32; 32; 32; 32; 32; 32] ++ ([123] ++ ([10] ++ join [10] (frame_lines w f) ++ [10] ++ s2z "      ") ++ [125]) ++ []) ++ [44] ++ ([10] ++ s2z "      {" ++ [10] ++ R ++ [10] ++ s2z "    ")).
    + cbn [join]. unfold str. rewrite app_nil_r, <- ?app_assoc. reflexivity.
    + constructor; [now apply whiteb_ok| |apply white_nil|exact IH]. apply js_obj, frame_members.
Qed.

Lemma comma_backtrace l : comma (backtrace_lines w l) (backtrace_members w l).
Proof.
  destruct l as [|f l]; [constructor|]. unfold backtrace_members. pose proof (frames_elements l f) as El. set (V := map (shown_frame w) (f :: l)) in *.
  rewrite <- (app_nil_r (backtrace_lines w (f :: l))).
  set (R := join [10] (frame_lines w f ++ frames_lines w l ++ [s2z "      }"])) in *.
  apply co_block with (t := key "backtrace" ++ [123] ++ ([10; 32; 32; 32; 32] ++ [34] ++ N "frames" ++ [34] ++ [32] ++ [58] ++ [32] ++ ([91] ++ ([10] ++ s2z "      {" ++ [10] ++ R ++ [10] ++ s2z "    ") ++ [93]) ++ [10; 32; 32]) ++ [125]).
  - discriminate.
  - unfold backtrace_lines.
    replace ([s2z "  ""backtrace"" : {"; s2z "    ""frames"" : ["; s2z "      {"] ++ frame_lines w f ++ frames_lines w l ++ [s2z "      }"; s2z "    ]"; s2z "  },"])
      with ([s2z "  ""backtrace"" : {"; s2z "    ""frames"" : ["; s2z "      {"] ++ (frame_lines w f ++ frames_lines w l ++ [s2z "      }"]) ++ [s2z "    ]"; s2z "  },"]) by (rewrite <- !app_assoc; reflexivity).
    rewrite join_app by (unfold frame_lines; discriminate). rewrite join_app by (unfold frame_lines; discriminate). fold R. cbn [join]. rewrite <- !app_assoc. reflexivity.
  - apply key_member; [reflexivity|]. apply js_obj. constructor. constructor; try (now apply whiteb_ok); [now apply jchars_plainb|]. apply js_arr, El.
  - constructor.
Qed.

End Lines.

(** ** Times and messages *)

Lemma plain_app a b : plain a -> plain b -> plain (a ++ b).
Proof. intros. now apply Forall_app. Qed.

Lemma date_time_ok w o : iso_ok w o -> exists s, date_time w o = Ok s /\ shown_time w o s /\ plain s.
Proof.
  destruct o as [t|]; cbn [iso_ok date_time shown_time]; [|intros _; eexists; repeat split; now apply plainb_ok].
  intros (s & -> & P & L & Ht & Hc). do 35 (destruct s as [|? s]; [exfalso; cbn in L; lia|]). cbn in Ht, Hc. injection Ht as ->. injection Hc as ->.
  rewrite !pyslice_nonneg by lia.
  match goal with |- context [zskipn 11 (?c0 :: ?c1 :: ?c2 :: ?c3 :: ?c4 :: ?c5 :: ?c6 :: ?c7 :: ?c8 :: ?c9 :: 84 :: ?d0 :: ?d1 :: ?d2 :: ?d3 :: ?d4 :: ?d5 :: ?d6 :: ?d7 :: ?e0 :: ?e1 :: ?e2 :: ?e3 :: ?e4 :: ?e5 :: ?e6 :: ?f0 :: ?f1 :: ?f2 :: ?g0 :: ?g1 :: ?g2 :: 58 :: ?h0 :: ?h1 :: ?r)] =>
    exists ([c0; c1; c2; c3; c4; c5; c6; c7; c8; c9] ++ [32] ++ [d0; d1; d2; d3; d4; d5; d6; d7] ++ [e0; e1; e2; e3; e4; e5; e6] ++ [g0; g1; g2] ++ [h0; h1]); split; [destruct r; reflexivity|]; split;
    [exists [c0; c1; c2; c3; c4; c5; c6; c7; c8; c9], [d0; d1; d2; d3; d4; d5; d6; d7], [e0; e1; e2; e3; e4; e5; e6], [f0; f1; f2], [g0; g1; g2], [h0; h1], r; repeat split|] end.
  unfold plain in *. repeat (match goal with H : Forall _ (_ :: _) |- _ => inversion H; clear H; subst end). cbn [app]. repeat (constructor; [assumption || (repeat split; discriminate)|]). constructor.
Qed.

Lemma strip_end_ok space s : stripped space s (strip_end space s).
Proof.
  induction s as [|c s (r & E & F & H)]; [exists []; split; [reflexivity|]; split; [constructor|now left]|]. cbn [strip_end fold_right]. change (fold_right _ [] s) with (strip_end space s).
  destruct (strip_end space s) as [|x t] eqn:Et.
  - destruct (space c) eqn:Ec.
    + exists (c :: r). cbn in E. subst. split; [reflexivity|]. split; [now constructor|now left].
    + exists r. cbn in E. subst. split; [reflexivity|]. split; [assumption|]. right. exists [], c. now split.
  - exists r. split; [cbn; cbn in E; now rewrite E|]. split; [assumption|]. right. destruct H as [H|(u & d & H & Hd)]; [discriminate|]. exists (c :: u), d. split; [cbn; now rewrite H|assumption].
Qed.

Lemma zfirstn_firstn {A} (l : list A) : forall n, zfirstn n l = firstn (Z.to_nat n) l.
Proof.
  induction l as [|x l IH]; intros n; [now rewrite firstn_nil|]. cbn [zfirstn]. destruct (Z.leb_spec n 0); [replace (Z.to_nat n) with O by lia; reflexivity|].
  replace (Z.to_nat n) with (S (Z.to_nat (n - 1))) by lia. cbn [firstn]. now rewrite IH.
Qed.

Lemma cut_message_ok w e : shown_message w e (cut_message w e).
Proof.
  unfold cut_message. exists (strip_end (t_space w) (or_empty (en_message e))). split; [apply strip_end_ok|]. destruct (Z.leb_spec 1085 (len (strip_end (t_space w) (or_empty (en_message e))))); [right|left; auto].
  split; [assumption|]. rewrite pyslice_nonneg by lia. rewrite zfirstn_firstn. cbn [zskipn]. destruct (strip_end _ _); reflexivity.
Qed.

Lemma stripped_unique space s t u : stripped space s t -> stripped space s u -> t = u.
Proof.
  assert (H : forall a r b r', a ++ r = b ++ r' -> Forall (fun c => space c = true) r -> (b = [] \/ exists u c, b = u ++ [c] /\ space c = false) -> (length b <= length a)%nat).
  { intros a r b r' E F [->|(v & c & -> & Hc)]; [cbn; lia|]. destruct (Nat.le_gt_cases (length (v ++ [c])) (length a)) as [|G]; [assumption|]. exfalso.
    rewrite app_length in G. cbn in G. assert (In c r); [|rewrite Forall_forall in F; rewrite (F c) in Hc by assumption; discriminate].
    rewrite <- app_assoc in E. apply (f_equal (fun l => nth_error l (length v))) in E. rewrite (nth_error_app2 v) in E by lia. rewrite Nat.sub_diag in E. cbn in E. rewrite nth_error_app2 in E by lia. eapply nth_error_In; exact E. }
  intros (r & E & F & Ht) (r' & E' & F' & Hu). pose proof (H _ _ _ _ (eq_trans (eq_sym E) E') F Hu). pose proof (H _ _ _ _ (eq_trans (eq_sym E') E) F' Ht).
  rewrite E in E'. apply (f_equal (firstn (length t))) in E'. rewrite firstn_app, Nat.sub_diag, firstn_all, app_nil_r in E'. replace (length t) with (length u) in E' by lia. rewrite firstn_app, Nat.sub_diag, firstn_all, app_nil_r in E'. exact E'.
Qed.

Lemma cut_printable w e : printable (or_empty (en_message e)) -> printable (cut_message w e).
Proof.
  intros P. destruct (cut_message_ok w e) as (s & (r & E & _) & H). rewrite E in P. apply Forall_app in P as [P _]. destruct H as [(_ & ->)|(_ & ->)]; [exact P|].
  apply Forall_app. split; [|repeat (constructor; [left; lia|]); constructor]. rewrite <- (firstn_skipn 1087 s) in P. now apply Forall_app in P as [P _].
Qed.

(** ** Parent activities *)

Lemma creates_dec a e : (exists c, creates a c e) \/ (forall c, ~ creates a c e).
Proof.
  unfold creates, is_timesync. destruct (list_eqb (event e) (N "timesyncEvent")) eqn:T; [right; intros c (H & _); apply H; now apply list_eqb_eq|].
  destruct (en_creator e) as [c|]; [|right; intros c (_ & H & _); discriminate]. destruct (Z.eq_dec (activity e) a) as [A|A]; [|right; intros c' (_ & _ & H); contradiction].
  left. exists c. repeat split; [|assumption]. intros H. rewrite H, list_eqb_refl in T. discriminate.
Qed.

Definition remembers (l : list entry) (parents : list (Z * Z)) : Prop :=
  forall a, exists o, created_by l a o /\ parent_get parents a = match o with Some c => Some (c mod 2 ^ 63) | None => None end.

Lemma remembers_nil : remembers [] [].
Proof. intros a. exists None. split; [constructor|reflexivity]. Qed.

Lemma created_skip l e a o : (forall c, ~ creates a c e) -> created_by l a o -> created_by (l ++ [e]) a o.
Proof.
  intros H. destruct o as [c|]; cbn.
  - intros (pre & x & post & -> & C & F). exists pre, x, (post ++ [e]). split; [now rewrite <- app_assoc|]. split; [assumption|]. apply Forall_app. split; [assumption|]. now constructor.
  - intros F. apply Forall_app. split; [assumption|]. now constructor.
Qed.

Lemma remembers_skip l e parents : (forall a c, ~ creates a c e) -> remembers l parents -> remembers (l ++ [e]) parents.
Proof. intros H R a. destruct (R a) as (o & C & G). exists o. split; [now apply created_skip|exact G]. Qed.

Lemma remembers_event l e parents : ~ is_timesync e -> remembers l parents -> remembers (l ++ [e]) (remember e parents).
Proof.
  intros T R. unfold remember. destruct (en_creator e) as [c|] eqn:Ec.
  - intros a. cbn [parent_get]. destruct (Z.eqb_spec (or0 (en_activity e)) a) as [A|A].
    + exists (Some c). split.
      * exists l, e, []. split; [reflexivity|]. split; [now repeat split|constructor].
      * f_equal. change activity_mask with (Z.ones 63). now rewrite Z.land_ones by lia.
    + destruct (R a) as (o & C & G). exists o. split; [|exact G]. apply created_skip; [|exact C]. intros c' (_ & _ & H). now apply A.
  - apply remembers_skip; [|exact R]. intros a c (_ & H & _). congruence.
Qed.

Lemma created_unique l a o o' : created_by l a o -> created_by l a o' -> o = o'.
Proof.
  assert (H : forall c o', created_by l a (Some c) -> created_by l a o' -> o' = Some c).
  { intros c o2 (pre & x & post & E & C & F). destruct o2 as [c'|].
    - intros (pre' & x' & post' & E' & C' & F'). f_equal. rewrite E in E'. clear E l.
      assert (x' = x) as ->; [|destruct C as (_ & C & _), C' as (_ & C' & _); congruence].
      revert pre' E'. induction pre as [|y pre IH]; intros [|z pre'] E'; cbn in E'; injection E' as E1 E2.
      + congruence.
      + exfalso. subst. apply Forall_app in F as [_ F]. inversion F as [|? ? Fx _]; subst. now apply (Fx c').
      + exfalso. subst. apply Forall_app in F' as [_ F']. inversion F' as [|? ? Fx _]; subst. now apply (Fx c).
      + now apply (IH pre').
    - intros F'. exfalso. cbn in F'. rewrite E in F'. apply Forall_app in F' as [_ F']. inversion F' as [|? ? Fx _]; subst. now apply (Fx c). }
  intros C C'. destruct o as [c|]; [symmetry; now apply H|]. destruct o' as [c'|]; [|reflexivity]. now apply (H c' None).
Qed.

Lemma parent_ok l e parents : remembers (l ++ [e]) parents -> shown_parent l e (parent_of e parents).
Proof.
  intros R. destruct (R (activity e)) as (o & C & G). unfold shown_parent, parent_of. unfold activity in G. rewrite G. exists o. eexists. split; [exact C|]. split; [reflexivity|].
  assert (Q : (if or0 (en_parent e) =? 0 then match o with Some c => c mod 2 ^ 63 | None => 0 end else or0 (en_parent e)) =
          match en_parent e with Some p => if p =? 0 then or0 match o with Some c => Some (c mod 2 ^ 63) | None => None end else p | None => or0 match o with Some c => Some (c mod 2 ^ 63) | None => None end end).
  { destruct (en_parent e) as [p|]; cbn [or0]; [destruct (p =? 0)|cbn]; destruct o; reflexivity. }
  rewrite <- Q. destruct (en_creator e); [|reflexivity]. reflexivity.
Qed.

(** ** Entries *)

Lemma is_event_eq e l : is_event e l = existsb (list_eqb (event e)) (map N l).
Proof. unfold is_event, event, N. induction l as [|x l IH]; [reflexivity|]. cbn. now rewrite IH. Qed.

Lemma timesync_iff e : is_event e ["timesyncEvent"%string] = true <-> is_timesync e.
Proof. unfold is_event, is_timesync, event, N. cbn [existsb]. rewrite orb_false_r. split; [apply list_eqb_eq|intros ->; apply list_eqb_refl]. Qed.

Lemma plain_or o : plain_opt o -> jchars (or_empty o) (or_empty o).
Proof. destruct o; [apply jchars_plain|constructor]. Qed.

Lemma shown_uuid_jchars w o : tools_ok w -> jchars (uuid_text w o) (shown_uuid w o).
Proof. intros W. destruct o; [apply jchars_plain, W|constructor]. Qed.
Definition shown_boot (w : tools) (e : entry) : str := match en_boot e with Some u => t_uuid w u | None => N "NONE" end.
Lemma boot_jchars w e : tools_ok w -> jchars (boot_text w e) (shown_boot w e).
Proof. intros W. unfold boot_text, shown_boot. destruct (en_boot e); [apply jchars_plain, W|now apply jchars_plainb]. Qed.
Lemma format_jchars w e : clean w e -> jchars (format_text e) (shown_format e).
Proof.
  intros C. unfold format_text, shown_format. rewrite is_event_eq. cbn [map]. destruct (existsb (list_eqb (event e)) _); [constructor|]. apply lines_escape_jchars, (cl_format _ _ C).
Qed.

Lemma members_eq a b l : a = b -> members b l -> members a l.
Proof. now intros ->. Qed.

Fixpoint nodupb (l : list str) : bool := match l with [] => true | x :: l => negb (existsb (list_eqb x) l) && nodupb l end.
Lemma nodupb_ok (l : list str) : nodupb l = true -> NoDup l.
Proof.
  induction l as [|x l IH]; cbn [nodupb]; [constructor|]. intros H. apply andb_prop in H as [H1 H2]. constructor; [|auto]. intros I. apply negb_true_iff in H1. 
  assert (existsb (list_eqb x) l = true); [|congruence]. apply existsb_exists. exists x. split; [assumption|apply list_eqb_refl].
Qed.

(** Moves the head of the left list to its place in the right list. *)
Ltac perm_step :=
  match goal with
  | |- Permutation [] [] => constructor
  | |- Permutation (?x :: ?l) ?r =>
      let rec go acc r k :=
        match r with
        | x :: ?r' => k acc r'
        | ?y :: ?r' => go (y :: acc) r' k
        end in
      go (@nil (str * jv)) r ltac:(fun acc r' => let a := eval cbn [rev app] in (rev acc) in apply (Permutation_cons_app a r' x); cbn [app])
  end.
Ltac perm := repeat perm_step.
Ltac atoms := repeat match goal with |- context [@pair str jv ?a ?b] => let x := fresh in set (x := @pair str jv a b) in *; clearbody x end.

Lemma comma_cons a m l ms : comma [a] [m] -> comma l ms -> comma (a :: l) (m :: ms).
Proof. intros. now apply (comma_app [a] [m]). Qed.

Ltac comma_one := first [apply comma_num; reflexivity|apply comma_text; [reflexivity|]|idtac].
Ltac commas := match goal with |- comma (_ :: _ :: _) _ => apply comma_cons; [comma_one|commas] | _ => comma_one end.

Lemma timezone_member : member (s2z "  ""timezoneName"" : """"") (N "timezoneName") (JStr []).
Proof. apply (key_member "timezoneName" ([34] ++ [] ++ [34]) (JStr [])); [reflexivity|]. constructor. constructor. Qed.

Section Entries.
Variable w : tools.
Hypothesis W : tools_ok w.

(** What [entry_lines] makes of an entry. *)
Definition good (l : list entry) (e : entry) (parents : list (Z * Z)) : Prop :=
  exists ls last n v m parents', entry_lines w e parents = Ok (ls ++ [last], parents') /\ comma ls m /\ member last n v /\ shows w l e (JObj (m ++ [(n, v)])) /\ remembers (l ++ [e]) parents'.

Lemma timesync_good l e parents : clean w e -> remembers l parents -> is_event e ["timesyncEvent"%string] = true -> good l e parents.
Proof.
  intros C R T. unfold good, entry_lines. rewrite T. apply timesync_iff in T. unfold timesync_lines. destruct (date_time_ok w _ (cl_time _ _ C)) as (time & -> & Ht & Pt).
  destruct (en_mach e) as [mach|] eqn:Em; [|now destruct (cl_mach _ _ C)]. destruct (en_trace e) as [trace|] eqn:Er; [|now destruct (cl_trace _ _ C)]. cbn [bind need].
  match goal with |- context [Ok ([?a1; ?a2; ?a3; ?a4; ?a5; ?a6; ?a7; ?a8; ?a9; ?b1; ?b2; ?b3; ?b4; ?b5; ?b6; ?b7; ?b8; ?b9; ?z], _)] =>
    exists [a1; a2; a3; a4; a5; a6; a7; a8; a9; b1; b2; b3; b4; b5; b6; b7; b8; b9], z, (N "senderImagePath"), (JStr (or_empty (en_sender_path e))) end.
  exists [(N "bootUUID", JStr (shown_boot w e)); (N "category", JStr (or_empty (en_category e))); (N "processImageUUID", JStr (shown_uuid w (en_process e))); (N "eventType", JStr (event e));
          (N "threadID", JNum (or0 (en_thread e))); (N "timestamp", JStr time); (N "activityIdentifier", JNum (activity e)); (N "senderProgramCounter", JNum (or0 (en_counter e)));
          (N "parentActivityIdentifier", JNum 0); (N "machTimestamp", JNum mach); (N "processID", JNum (or0 (en_pid e))); (N "subsystem", JStr (or_empty (en_sub e))); (N "timezoneName", JStr []);
          (N "traceID", JNum trace); (N "eventMessage", JStr (cut_message w e)); (N "formatString", JStr (shown_format e)); (N "processImagePath", JStr (or_empty (en_process_path e))); (N "senderImageUUID", JStr (shown_uuid w (en_sender e)))], parents.
  split; [reflexivity|]. split; [|split; [|split]].
  - commas; [apply boot_jchars, W|apply plain_or, (cl_category _ _ C)|apply shown_uuid_jchars, W|apply plain_or, (cl_event _ _ C)|apply jchars_plain, Pt| |apply plain_or, (cl_sub _ _ C)| | | | |].
    + apply (comma_num "parentActivityIdentifier" 0). reflexivity.
    + apply (comma_text "timezoneName" [] []); [reflexivity|constructor].
    + apply lines_escape_jchars, cut_printable, (cl_message _ _ C).
    + apply (format_jchars _ _ C).
    + apply escape_jchars, (cl_process_path _ _ C).
    + apply shown_uuid_jchars, W.
  - apply (key_member "senderImagePath" ([34] ++ sender_text (or_empty (en_sender_path e)) ++ [34])); [reflexivity|]. constructor. apply sender_jchars, (cl_sender_path _ _ C).
  - eexists _, (cut_message w e), time, mach, trace. split; [reflexivity|]. split; [now apply nodupb_ok|]. split; [apply cut_message_ok|]. split; [exact Ht|]. split; [exact Em|]. split; [exact Er|]. left. split; [exact T|].
    unfold common_members. fold (shown_boot w e). cbn [app]. perm.
  - apply remembers_skip; [|exact R]. intros a c (H & _). contradiction.
Qed.

(** The members of an event in the order of the lines. *)
Definition event_members (e : entry) (message time start stop : str) (mach trace parent start_mach end_mach : Z) : list (str * jv) :=
  [(N "traceID", JNum trace)] ++
  (if is_event e ["activityCreateEvent"; "lossEvent"; "signpostEvent"; "userActionEvent"]%string then [] else [(N "eventMessage", JStr message)]) ++
  [(N "eventType", JStr (event e))] ++
  opt_members (en_loss e) (fun n => [(N "lossCount", JNum n); (N "lossCountSaturated", JTrue)]) ++
  opt_members (en_signpost e) (fun n => [(N "signpostID", JNum n); (N "signpostScope", JStr (or_empty (en_signpost_scope e)))]) ++
  (if is_event e ["activityCreateEvent"; "lossEvent"; "userActionEvent"]%string then [] else [(N "source", JNull)]) ++
  [(N "formatString", JStr (shown_format e))] ++
  opt_members (en_loss e) (fun _ => [(N "lossEndMachContinuousTimestamp", JNum end_mach)]) ++
  [(N "activityIdentifier", JNum (activity e)); (N "subsystem", JStr (or_empty (en_sub e))); (N "category", JStr (or_empty (en_category e)));
   (N "threadID", JNum (or0 (en_thread e))); (N "senderImageUUID", JStr (shown_uuid w (en_sender e)))] ++
  opt_members (en_signpost e) (fun _ => [(N "signpostType", JStr (or_empty (en_signpost_type e)))]) ++
  backtrace_members w (en_frames e) ++
  [(N "bootUUID", JStr (shown_boot w e)); (N "processImagePath", JStr (or_empty (en_process_path e))); (N "timestamp", JStr time);
   (N "senderImagePath", JStr (or_empty (en_sender_path e)))] ++
  match en_creator e with
  | Some c => [(N "creatorActivityID", JNum c)]
  | None =>
      match en_loss e with
      | Some _ => [(N "lossStartMachContinuousTimestamp", JNum start_mach); (N "lossEndTimestamp", JStr stop); (N "lossStartTimestamp", JStr start)]
      | None => opt_members (en_signpost e) (fun _ => [(N "signpostName", JStr (or_empty (en_signpost_name e)))])
      end
  end ++
  [(N "machTimestamp", JNum mach)] ++
  (if is_event e ["activityCreateEvent"; "lossEvent"; "signpostEvent"; "userActionEvent"]%string then [(N "eventMessage", JStr message)]
   else [(N "messageType", JStr (or_empty (en_kind e)))]) ++
  [(N "processImageUUID", JStr (shown_uuid w (en_process e))); (N "processID", JNum (or0 (en_pid e))); (N "senderProgramCounter", JNum (or0 (en_counter e)));
   (N "parentActivityIdentifier", JNum parent)].

Lemma event_perm e message time start stop mach trace parent start_mach end_mach :
  Permutation (event_members e message time start stop mach trace parent start_mach end_mach ++ [(N "timezoneName", JStr [])])
    (common_members w e message time mach trace parent ++ special_members w e start stop start_mach end_mach).
Proof.
  unfold event_members, common_members, special_members. fold (shown_boot w e).
  rewrite !is_event_eq. cbn [map].
  set (A := existsb (list_eqb (event e)) [N "activityCreateEvent"; N "lossEvent"; N "signpostEvent"; N "userActionEvent"]).
  set (B := existsb (list_eqb (event e)) [N "activityCreateEvent"; N "lossEvent"; N "userActionEvent"]). clearbody A B.
  assert (BT : backtrace_members w (en_frames e) = [] \/ exists x, backtrace_members w (en_frames e) = [x]) by (destruct (en_frames e); [now left|right; eexists; reflexivity]).
  destruct BT as [-> | (x & ->)]; atoms; destruct A, B, (en_creator e), (en_loss e), (en_signpost e); cbn [opt_members app]; atoms; perm.
Qed.

Lemma event_nodup e message time start stop mach trace parent start_mach end_mach :
  NoDup (map fst (event_members e message time start stop mach trace parent start_mach end_mach ++ [(N "timezoneName", JStr [])])).
Proof.
  unfold event_members. generalize (is_event e ["activityCreateEvent"; "lossEvent"; "signpostEvent"; "userActionEvent"]%string) (is_event e ["activityCreateEvent"; "lossEvent"; "userActionEvent"]%string).
  intros A B. apply nodupb_ok. destruct A, B, (en_creator e), (en_loss e), (en_signpost e), (en_frames e); vm_compute; reflexivity.
Qed.

Lemma event_good l e parents : clean w e -> remembers l parents -> is_event e ["timesyncEvent"%string] = false -> good l e parents.
Proof.
  intros C R T. unfold good, entry_lines. rewrite T. assert (T' : ~ is_timesync e) by (intros H; apply timesync_iff in H; congruence). clear T. unfold event_lines.
  destruct (date_time_ok w _ (cl_time _ _ C)) as (time & -> & Ht & Pt).
  destruct (en_mach e) as [mach|] eqn:Em; [|now destruct (cl_mach _ _ C)]. destruct (en_trace e) as [trace|] eqn:Er; [|now destruct (cl_trace _ _ C)]. cbn [bind need].
  assert (E1 : exists x, match en_loss e with Some _ => need (en_loss_end_mach e) | None => Ok 0 end = Ok x /\ (en_loss e <> None -> en_loss_end_mach e = Some x)).
  { pose proof (cl_loss _ _ C) as H. destruct (en_loss e); [|exists 0; split; [reflexivity|congruence]]. destruct H as [H _]; [discriminate|]. destruct (en_loss_end_mach e) as [x|]; [|congruence]. exists x. now split. }
  destruct E1 as (end_mach & -> & He). cbn [bind].
  assert (E2 : exists start stop start_mach ls, match en_creator e, en_loss e with
             | None, Some _ =>
                 do start <- date_time w (en_loss_start e); do stop <- date_time w (en_loss_end e); do start_mach <- need (en_loss_start_mach e);
                 Ok [num_line "lossStartMachContinuousTimestamp" start_mach; text_line "lossEndTimestamp" stop; text_line "lossStartTimestamp" start]
             | _, _ => Ok []
             end = Ok ls /\ (en_loss e <> None -> en_creator e = None -> ls = [num_line "lossStartMachContinuousTimestamp" start_mach; text_line "lossEndTimestamp" stop; text_line "lossStartTimestamp" start] /\
               en_loss_start_mach e = Some start_mach /\ shown_time w (en_loss_start e) start /\ shown_time w (en_loss_end e) stop /\ plain start /\ plain stop)).
  { pose proof (cl_loss _ _ C) as H. destruct (en_creator e); [exists [], [], 0, []; split; [reflexivity|discriminate]|]. destruct (en_loss e); [|exists [], [], 0, []; split; [reflexivity|congruence]].
    destruct H as [_ H]; [discriminate|]. destruct (H eq_refl) as (H1 & H2 & H3). destruct (date_time_ok w _ H2) as (start & -> & S1 & S2). destruct (date_time_ok w _ H3) as (stop & -> & S3 & S4).
    destruct (en_loss_start_mach e) as [x|]; [|congruence]. exists start, stop, x. eexists. split; [reflexivity|]. intros _ _. repeat split; assumption. }
  destruct E2 as (start & stop & start_mach & lls & -> & Hl). cbn [bind]. set (parents' := remember e parents).
  pose proof (remembers_event l e parents T' R) as R'. fold parents' in R'.
  match goal with |- context [Ok (?ls, parents')] => set (LS := ls) end.
  assert (EL : exists ls, LS = ls ++ [s2z "  ""timezoneName"" : """""] /\ comma ls (event_members e (cut_message w e) time start stop mach trace (parent_of e parents') start_mach end_mach)).
  { eexists. unfold LS, event_members. clear LS. split.
    - match goal with |- context [?a :: ?b :: ?c :: ?d :: [s2z "  ""timezoneName"" : """""]] => change [a; b; c; d; s2z "  ""timezoneName"" : """""] with ([a; b; c; d] ++ [s2z "  ""timezoneName"" : """""]) end.
      rewrite !(app_assoc _ _ [s2z "  ""timezoneName"" : """""]). reflexivity.
    - apply comma_app; [apply comma_num; reflexivity|].
      assert (Cm : comma [text_line "eventMessage" (lines_escape (cut_message w e))] [(N "eventMessage", JStr (cut_message w e))]) by (apply comma_text; [reflexivity|]; apply lines_escape_jchars, cut_printable, (cl_message _ _ C)).
      apply comma_app; [destruct (is_event e _); [constructor|exact Cm]|].
      apply comma_app; [apply comma_text; [reflexivity|]; apply plain_or, (cl_event _ _ C)|].
      apply comma_app.
      { destruct (en_loss e); [|constructor]. apply comma_cons; [apply comma_num; reflexivity|]. apply (comma_line _ (key "lossCountSaturated" ++ s2z "true")); [reflexivity|apply key_member; [reflexivity|apply js_true]]. }
      apply comma_app.
      { destruct (en_signpost e); [|constructor]. apply comma_cons; [apply comma_num; reflexivity|]. apply comma_text; [reflexivity|]. apply plain_or, (cl_scope _ _ C). }
      apply comma_app.
      { destruct (is_event e _); [constructor|]. apply (comma_line _ (key "source" ++ s2z "null")); [reflexivity|apply key_member; [reflexivity|apply js_null]]. }
      apply comma_app; [apply comma_text; [reflexivity|]; apply (format_jchars _ _ C)|].
      apply comma_app; [destruct (en_loss e); [apply comma_num; reflexivity|constructor]|].
      apply comma_app.
      { apply comma_cons; [apply comma_num; reflexivity|]. apply comma_cons; [apply comma_text; [reflexivity|]; apply plain_or, (cl_sub _ _ C)|].
        apply comma_cons; [apply comma_text; [reflexivity|]; apply plain_or, (cl_category _ _ C)|]. apply comma_cons; [apply comma_num; reflexivity|]. apply comma_text; [reflexivity|]. apply shown_uuid_jchars, W. }
      apply comma_app; [destruct (en_signpost e); [apply comma_text; [reflexivity|]; apply plain_or, (cl_type _ _ C)|constructor]|].
      apply comma_app; [apply comma_backtrace, W|].
      apply comma_app.
      { apply comma_cons; [apply comma_text; [reflexivity|]; apply boot_jchars, W|]. apply comma_cons; [apply comma_text; [reflexivity|]; apply escape_jchars, (cl_process_path _ _ C)|].
        apply comma_cons; [apply comma_text; [reflexivity|]; apply jchars_plain, Pt|]. apply comma_text; [reflexivity|]. apply sender_jchars, (cl_sender_path _ _ C). }
      apply comma_app.
      { destruct (en_creator e); [apply comma_num; reflexivity|]. destruct (en_loss e).
        - destruct Hl as (-> & _ & _ & _ & Ps & Pe); [discriminate|reflexivity|]. apply comma_cons; [apply comma_num; reflexivity|]. apply comma_cons; (apply comma_text; [reflexivity|]); now apply jchars_plain.
        - destruct (en_signpost e); [apply comma_text; [reflexivity|]; apply plain_or, (cl_name _ _ C)|constructor]. }
      apply comma_app; [apply comma_num; reflexivity|].
      apply comma_app; [destruct (is_event e _); [exact Cm|apply comma_text; [reflexivity|]; apply plain_or, (cl_kind _ _ C)]|].
      apply comma_cons; [apply comma_text; [reflexivity|]; apply shown_uuid_jchars, W|]. apply comma_cons; [apply comma_num; reflexivity|]. apply comma_cons; [apply comma_num; reflexivity|]. apply comma_num; reflexivity. }
  destruct EL as (ls & -> & Cl). exists ls, (s2z "  ""timezoneName"" : """""), (N "timezoneName"), (JStr []). eexists. exists parents'. split; [reflexivity|]. split; [exact Cl|]. split; [apply timezone_member|]. split; [|exact R'].
  exists (event_members e (cut_message w e) time start stop mach trace (parent_of e parents') start_mach end_mach ++ [(N "timezoneName", JStr [])]), (cut_message w e), time, mach, trace.
  split; [reflexivity|]. split; [apply event_nodup|]. split; [apply cut_message_ok|]. split; [exact Ht|]. split; [exact Em|]. split; [exact Er|]. right. split; [exact T'|].
  exists (parent_of e parents'), start, stop, start_mach, end_mach. split; [apply parent_ok, R'|]. split; [|apply event_perm].
  intros L. split; [now apply He|]. intros Cr. destruct (Hl L Cr) as (_ & H1 & H2 & H3 & _). auto.
Qed.

Lemma entry_good l e parents : clean w e -> remembers l parents -> good l e parents.
Proof. intros C R. destruct (is_event e ["timesyncEvent"%string]) eqn:T; [now apply timesync_good|now apply event_good]. Qed.

(** ** The whole output *)

Lemma json_entries_false e r parents : json_entries w false (e :: r) parents = do s <- json_entries w true (e :: r) parents; Ok (s2z "},{" ++ [10] ++ s).
Proof. cbn [json_entries]. destruct (entry_lines w e parents) as [[lines parents']|]; [|reflexivity]. cbn [bind]. destruct (json_entries w false r parents'); reflexivity. Qed.

Lemma json_entries_ok r : forall l e parents, Forall (clean w) (e :: r) -> remembers l parents ->
  exists x vs, json_entries w true (e :: r) parents = Ok (x ++ [93]) /\ elements ([123; 10] ++ x) vs /\ shows_all w l (e :: r) vs.
Proof.
  induction r as [|e' r IH]; intros l e parents F R; inversion F as [|? ? C F']; subst; destruct (entry_good l e parents C R) as (ls & last & n & v & m & parents' & El & Cm & Me & Sh & R').
  - cbn [json_entries]. rewrite El. cbn [bind]. exists (join [10] (ls ++ [last]) ++ [10] ++ [125]), [JObj (m ++ [(n, v)])]. split; [|split; [|constructor; [exact Sh|constructor]]].
    + cbn [app]. f_equal. unfold str. rewrite <- app_assoc. reflexivity.
    + apply elements_eq with (b := [] ++ ([123] ++ ([10] ++ join [10] (ls ++ [last]) ++ [10]) ++ [125]) ++ []).
      * rewrite app_nil_r. cbn [app]. unfold str. rewrite <- app_assoc. reflexivity.
      * constructor; try apply white_nil. apply js_obj. now apply comma_members.
  - destruct (IH (l ++ [e]) e' parents' F' R') as (x & vs & Ex & Ev & Es). change (json_entries w true (e :: e' :: r) parents) with
      (do (lines, parents) <- entry_lines w e parents; do rest <- json_entries w false (e' :: r) parents; Ok ([] ++ join [10] lines ++ [10] ++ rest)).
    rewrite El. cbn [bind]. rewrite json_entries_false, Ex. cbn [bind]. exists (join [10] (ls ++ [last]) ++ [10] ++ [125] ++ [44] ++ [123; 10] ++ x), (JObj (m ++ [(n, v)]) :: vs). split; [|split; [|constructor; [exact Sh|exact Es]]].
    + f_equal. unfold str. cbn [app]. rewrite <- app_assoc. reflexivity.
    + apply elements_eq with (b := ([] ++ ([123] ++ ([10] ++ join [10] (ls ++ [last]) ++ [10]) ++ [125]) ++ []) ++ [44] ++ ([123; 10] ++ x)).
      * rewrite app_nil_r. unfold str. cbn [app]. rewrite <- !app_assoc. reflexivity.
      * constructor; try apply white_nil; [|exact Ev]. apply js_obj. now apply comma_members.
Qed.

Lemma json_part_ok l : l <> [] -> Forall (clean w) l -> exists s vs, json_part w l = Ok s /\ json_text s (JArr vs) /\ shows_all w [] (sort_entries en_time l) vs.
Proof.
  intros Nl F. destruct (sort_ok entry en_time l) as [P _]. assert (F' : Forall (clean w) (sort_entries en_time l)) by (eapply Permutation_Forall; [symmetry; exact P|exact F]).
  unfold json_part. destruct (sort_entries en_time l) as [|e r]; [apply Permutation_nil in P; congruence|].
  destruct (json_entries_ok r [] e [] F' remembers_nil) as (x & vs & -> & Ev & Es). cbn [bind]. eexists _, vs. split; [reflexivity|]. split; [|exact Es].
  exists [], ([91] ++ ([123; 10] ++ x) ++ [93]), []. split; [apply white_nil|]. split; [now apply js_arr|]. split; [apply white_nil|]. rewrite app_nil_r. reflexivity.
Qed.

End Entries.
