From Verif Require Import Base BaseFacts CoreModel VarModel VarFacts SeqModel SeqSpec SeqFacts StrModel StrFacts DictModel TextModel TextProofs MemModel MemSpec MemFacts.
From Verif Require Import BsmModel BsmSpec BsmProofs KcdModel KcdSpec KcdProofs BsdModel BsdSpec.

(** ** Tokens *)

Ltac shape H := destruct H; cbn [fst snd] in *;
    repeat match goal with
    | H : In (_, _) _ |- _ => apply in_inv in H as [H|H]; [injection H as <- <-|]
    | H : In _ (_ :: _) |- _ => apply in_inv in H as [<-|H]
    | H : In _ [] |- _ => contradiction
    | H : int32s _ _ |- _ => destruct H as [H ->]
    end; num_out; try discriminate;
    repeat match goal with H : _ :: _ = _ |- _ => first [discriminate H|injection H as]; subst end; subst; cbn [app map].

(** A token either cannot be shown, or has a text. *)
Lemma structure_cases when k d : token_enc k d ->
  match show_error k with
  | Some IndexError => fst k = 0x52
  | Some e => bd_structure when k = Err e
  | None => exists t, bd_structure when k = Ok t
  end.
Proof.
  intros T. shape T; unfold show_error; cbn [fst snd Z.eqb Pos.eqb existsb orb net_type mint nth_error]; try reflexivity; unfold bd_structure; cbn [fst snd debug_attributes bd_attributes bd_format nth bind].
  all: try reflexivity.
  all: try (structure; eauto).
  all: try match goal with |- context [(?n =? 4) || (?n =? 16)] => destruct ((n =? 4) || (n =? 16)); cbn [bind]; [structure; eauto|reflexivity] end.
Qed.

Lemma known_description t : existsb (fun p => fst p =? t) token_descriptions = true -> exists name, token_description t = s2z "token "%string ++ name.
Proof.
  intros H. apply existsb_exists in H as ((x & s) & I & E). cbn [fst] in E. apply Z.eqb_eq in E. subst x.
  unfold token_descriptions in I. cbn [In] in I. repeat destruct I as [I|I]; try contradiction; injection I as <- <-; eexists; reflexivity.
Qed.

Lemma description_cases k d : token_enc k d -> (fst k = 0x52 /\ token_description (fst k) = []) \/ (fst k <> 0x52 /\ exists name, token_description (fst k) = s2z "token "%string ++ name).
Proof.
  intros T. destruct (Z.eq_dec (fst k) 0x52) as [E|N]; [left; split; [exact E|rewrite E; reflexivity]|right; split; [exact N|]].
  apply known_description. destruct k as [t vs]. cbn [fst] in *. apply token_mem_in in T as (ms & data & M & _ & _). cbn [fst] in M.
  members t M; try reflexivity. contradiction.
Qed.

(** Reading a token with debug output. *)
Lemma token_debug when content off k p : is_bytes content -> 0 <= off -> read_token content off = Ok (k, p) ->
  match show_error k with
  | Some e => bd_read_token when content off = Err e
  | None => exists d name text, token_enc k d /\ p = off + len d /\ token_description (fst k) = s2z "token "%string ++ name /\ bd_structure when k = Ok text /\
      bd_read_token when content off = Ok (token_output off d name text, (k, p))
  end.
Proof.
  intros Hb Ho E. unfold bd_read_token. rewrite E. cbn [bind]. apply (token_iff _ _ _ _ Hb Ho) in E as (d & T & S & ->).
  pose proof (structure_cases when k d T) as C. pose proof (token_len _ _ T) as L.
  apply stored_at_iff in S as (_ & Le & S).
  unfold bd_data at 1. cbn [s2z Ascii.N_of_ascii]. cbn [bind].
  destruct (description_cases _ _ T) as [(E52 & ->)|(N & name & ->)].
  - unfold show_error. rewrite E52. cbn [Z.eqb Pos.eqb]. reflexivity.
  - change (s2z "token "%string ++ name) with (116 :: s2z "oken "%string ++ name). cbn [bd_data]. change ((97 <=? 116) && (116 <=? 122)) with true. cbn [bind].
    destruct (show_error k) as [e|] eqn:Es.
    + assert (e <> IndexError). { intros ->. unfold show_error in Es. destruct (Z.eqb_spec (fst k) 82); [contradiction|]. destruct (existsb _ _); [discriminate|]. destruct (net_type k); [|discriminate]. destruct (_ || _); discriminate. }
      assert (C' : bd_structure when k = Err e) by (destruct e; try exact C; contradiction). rewrite C'. reflexivity.
    + destruct C as [t C]. rewrite C. cbn [bind]. exists d, name, t. split; [exact T|]. split; [reflexivity|]. split; [reflexivity|]. split; [reflexivity|].
      replace (pyslice content off (off + len d)) with d.
      2:{ rewrite pyslice_nonneg by lia. replace (off + len d - off) with (len d) by lia. symmetry. exact S. }
      replace (pyslice content off (off + 1)) with (firstn 1 d).
      2:{ rewrite pyslice_nonneg by lia. replace (off + 1 - off) with 1 by lia.
          transitivity (firstn 1 (zfirstn (len d) (zskipn off content))); [rewrite S; reflexivity|].
          rewrite !zfirstn_firstn, firstn_firstn. f_equal. lia. }
      unfold token_output, print_data, bd_reading, at_offset, format_offset. cbn [s2z app]. rewrite <- ?app_assoc. cbn [app]. rewrite <- ?app_assoc. reflexivity.
Qed.

(** ** Records and files *)

Lemma tokens_debug when content : is_bytes content -> forall fuel off e pos l p, 0 <= off -> record_tokens fuel content off e pos = Done (Ok (l, p)) ->
  match first_error l with
  | Some x => bd_record_tokens when fuel content off e pos = Done (Err x)
  | None => exists t, bd_record_tokens when fuel content off e pos = Done (Ok (t, (l, p))) /\
      ((l = [] /\ t = [] /\ p = pos) \/ tokens_shown (fun k t => bd_structure when k = Ok t) off l t p)
  end.
Proof.
  intros Hb. induction fuel as [|fuel IH]; intros off e pos l p Ho; cbn [record_tokens bd_record_tokens]; destruct (off <? e) eqn:Eo; try discriminate;
    try (intros [= <- <-]; cbn [first_error]; eexists; split; [reflexivity|left; auto]).
  destruct (read_token content off) as [[k q]|] eqn:T; [|discriminate].
  assert (T' := T). apply (token_iff _ _ _ _ Hb Ho) in T' as (dk & Tk & _ & Eq). pose proof (token_len _ _ Tk) as Lk.
  pose proof (token_debug when content off k q Hb Ho T) as D.
  destruct (Z.eqb_spec (fst k) 19) as [E19|N19].
  - intros [= <- <-]. cbn [first_error]. destruct (show_error k) as [x|]; [rewrite D; reflexivity|].
    destruct D as (d & name & text & H1 & H2 & H3 & H4 & ->). rewrite E19. cbn [Z.eqb Pos.eqb]. eexists. split; [reflexivity|]. right.
    rewrite <- (app_nil_r (token_output _ _ _ _)). rewrite H2. econstructor; try eassumption. constructor.
  - destruct (record_tokens fuel content q e q) as [[[l' p']|]|] eqn:R; cbn [rbind]; try discriminate. intros [= <- <-]. cbn [first_error].
    destruct (show_error k) as [x|]; [rewrite D; reflexivity|].
    destruct D as (d & name & text & H1 & H2 & H3 & H4 & ->). destruct (Z.eqb_spec (fst k) 19); [contradiction|].
    specialize (IH q e q l' p' ltac:(lia) R). destruct (first_error l') as [x|]; [rewrite IH; reflexivity|].
    destruct IH as (t & -> & C). cbn [rbind]. eexists. split; [reflexivity|]. right. econstructor; try eassumption. rewrite <- H2.
    destruct C as [(-> & -> & ->)|C]; [constructor|exact C].
Qed.

Lemma tokens_first content fuel off e pos k l p : record_tokens fuel content off e pos = Done (Ok (k :: l, p)) -> exists q, read_token content off = Ok (k, q).
Proof.
  destruct fuel; cbn [record_tokens]; destruct (off <? e); try discriminate.
  destruct (read_token content off) as [[k' q]|]; [|discriminate]. destruct (fst k' =? 19); [intros [= <- <- <-]; eauto|].
  destruct (record_tokens fuel content q e q) as [[[]|]|]; cbn [rbind]; try discriminate. intros [= <- <- <-]. eauto.
Qed.

Lemma record_debug when content fuel off h l p : is_bytes content -> 0 <= off -> read_bsm_record fuel content off = Done (Ok (h :: l, p)) ->
  match first_error (h :: l) with
  | Some x => bd_read_record when fuel content off = Done (Err x)
  | None => exists t0 t fin, bd_read_record when fuel content off = Done (Ok (t0 ++ t, (h :: l, p))) /\
      tokens_shown (fun k t => bd_structure when k = Ok t) off [h] t0 fin /\ tokens_shown (fun k t => bd_structure when k = Ok t) off (h :: l) t p
  end.
Proof.
  intros Hb Ho. unfold read_bsm_record, bd_read_record. destruct (read_token content off) as [[h' q]|] eqn:T; [|discriminate].
  pose proof (token_debug when content off h' q Hb Ho T) as D.
  destruct (is_header (fst h')) eqn:Eh; cbn [negb]; [|discriminate]. destruct (mint 1 (snd h') =? 11) eqn:Ev; cbn [negb]; [|discriminate]. cbv zeta.
  destruct (record_tokens fuel content off (off + mint 0 (snd h')) q) as [[[l' p']|]|] eqn:R; cbn [rbind]; try discriminate.
  destruct (record_size (last l' h')) as [size|] eqn:Er; [|discriminate]. destruct (size =? mint 0 (snd h')) eqn:Es; [|discriminate]. intros E.
  assert (l' = h :: l /\ p' = p) as [-> ->] by (split; congruence). clear E.
  destruct (tokens_first _ _ _ _ _ _ _ _ R) as (q' & T'). rewrite T in T'. assert (h' = h) by congruence. subst h'. clear T'.
  pose proof (tokens_debug when content Hb fuel off _ _ _ _ Ho R) as D'.
  cbn [first_error] in *. destruct (show_error h) as [x|]; [rewrite D; reflexivity|].
  destruct D as (d & name & text & H1 & H2 & H3 & H4 & ->). rewrite Eh, Ev. cbn [negb].
  destruct (first_error l) as [x|]; [rewrite D'; reflexivity|]. destruct D' as (t & -> & [(C & _)|C]); [discriminate|]. cbn [rbind]. rewrite Er, Es.
  exists (token_output off d name text), t, (off + len d). split; [reflexivity|]. split; [|exact C].
  rewrite <- (app_nil_r (token_output _ _ _ _)). econstructor; try eassumption. constructor.
Qed.

Lemma first_error_app a b : first_error (a ++ b) = match first_error a with Some e => Some e | None => first_error b end.
Proof. induction a as [|k a IH]; [reflexivity|]. cbn [app first_error]. destruct (show_error k); [reflexivity|exact IH]. Qed.

Lemma tokens_end content : is_bytes content -> forall fuel off e pos l p, 0 <= off <= pos -> record_tokens fuel content off e pos = Done (Ok (l, p)) -> off <= p.
Proof.
  intros Hb. induction fuel as [|fuel IH]; intros off e pos l p Ho; cbn [record_tokens]; destruct (off <? e) eqn:Eo; try discriminate; try (intros [= <- <-]; lia).
  destruct (read_token content off) as [[k q]|] eqn:T; [|discriminate]. apply (token_iff _ _ _ _ Hb (proj1 Ho)) in T as (dk & Tk & _ & ->). pose proof (token_len _ _ Tk) as Lk.
  destruct (fst k =? 19). { intros E. assert (p = off + len dk) by congruence. lia. }
  destruct (record_tokens fuel content (off + len dk) e (off + len dk)) as [[[l' p']|]|] eqn:R; cbn [rbind]; try discriminate. intros E. assert (p' = p) by congruence. subst p'.
  apply IH in R; lia.
Qed.

Lemma record_end content fuel off l p : is_bytes content -> 0 <= off -> read_bsm_record fuel content off = Done (Ok (l, p)) -> off <= p.
Proof.
  intros Hb Ho. unfold read_bsm_record. destruct (read_token content off) as [[h' q]|] eqn:T; [|discriminate].
  apply (token_iff _ _ _ _ Hb Ho) in T as (dk & Tk & _ & ->). pose proof (token_len _ _ Tk) as Lk.
  destruct (negb (is_header (fst h'))); [discriminate|]. destruct (negb (mint 1 (snd h') =? 11)); [discriminate|]. cbv zeta.
  destruct (record_tokens fuel content off (off + mint 0 (snd h')) (off + len dk)) as [[[l' p']|]|] eqn:R; cbn [rbind]; try discriminate.
  destruct (record_size (last l' h')) as [size|] eqn:Er; [|discriminate]. destruct (size =? mint 0 (snd h')) eqn:Es; [|discriminate]. intros E.
  assert (p' = p) by congruence. subst p'. eapply tokens_end; [exact Hb| |exact R]. lia.
Qed.

Lemma file_debug when content : is_bytes content -> forall fuel off rs, 0 <= off -> read_bsm fuel content off = Done (Ok rs) -> Forall (fun r => r <> []) rs ->
  match first_error (concat rs) with
  | Some x => bd_read when fuel content off = Done (Err x)
  | None => exists t, bd_read when fuel content off = Done (Ok (t, rs)) /\ records_shown (fun k t => bd_structure when k = Ok t) off rs t
  end.
Proof.
  intros Hb. induction fuel as [|fuel IH]; intros off rs Ho; cbn [read_bsm bd_read]; destruct (off <? len content); try discriminate;
    try (intros E F; assert (rs = []) by congruence; subst rs; cbn [concat first_error]; eexists; split; [reflexivity|constructor]).
  destruct (read_bsm_record (Datatypes.S fuel) content off) as [[[k p]|]|] eqn:R; cbn [rbind]; try discriminate.
  destruct (read_bsm fuel content p) as [[rs'|]|] eqn:R'; cbn [rbind]; try discriminate. intros E F. assert (k :: rs' = rs) by congruence. subst rs.
  inversion F as [|? ? Nk F']. subst. destruct k as [|h l]; [contradiction|]. pose proof (record_end _ _ _ _ _ Hb Ho R) as Lp.
  pose proof (record_debug when _ _ _ _ _ _ Hb Ho R) as D. specialize (IH p rs' ltac:(lia) R' F').
  cbn [concat]. rewrite first_error_app. destruct (first_error (h :: l)) as [x|]; [rewrite D; reflexivity|].
  destruct D as (t0 & t & fin & -> & S1 & S2). cbn [rbind]. destruct (first_error (concat rs')) as [x|]; [rewrite IH; reflexivity|].
  destruct IH as (t' & -> & S'). cbn [rbind]. eexists. split; [reflexivity|]. rewrite <- app_assoc. econstructor; eassumption.
Qed.

(** Whatever is shown has been read. *)
Definition bsd_err (e : exn) : Prop := In e [IndexError; TypeError; ParseError].

Lemma token_follow when content off : is_bytes content -> 0 <= off ->
  match bd_read_token when content off with
  | Ok (_, x) => read_token content off = Ok x
  | Err e => read_token content off = Err e \/ bsd_err e
  end.
Proof.
  intros Hb Ho. destruct (read_token content off) as [[k p]|e] eqn:T.
  - pose proof (token_debug when content off k p Hb Ho T) as D. destruct (show_error k) as [e|] eqn:Es.
    + rewrite D. right. unfold show_error in Es. unfold bsd_err. cbn [In].
      destruct (fst k =? 82); [assert (e = IndexError) by congruence; subst e; tauto|]. destruct (existsb _ _); [assert (e = TypeError) by congruence; subst e; tauto|].
      destruct (net_type k); [|discriminate]. destruct (_ || _); [discriminate|]. assert (e = ParseError) by congruence. subst e. tauto.
    + destruct D as (d & name & text & _ & _ & _ & _ & ->). reflexivity.
  - unfold bd_read_token. rewrite T. left. reflexivity.
Qed.

Definition run_follows {A} (r : run A) (d : run (str * A)) : Prop :=
  match d with
  | Done (Ok (_, x)) => r = Done (Ok x)
  | Done (Err e) => r = Done (Err e) \/ bsd_err e
  | OutOfFuel => r = OutOfFuel
  end.

Lemma tokens_follow when content : is_bytes content -> forall fuel off e pos, 0 <= off ->
  run_follows (record_tokens fuel content off e pos) (bd_record_tokens when fuel content off e pos).
Proof.
  intros Hb. induction fuel as [|fuel IH]; intros off e pos Ho; cbn [record_tokens bd_record_tokens]; destruct (off <? e); try reflexivity.
  pose proof (token_follow when content off Hb Ho) as F. destruct (bd_read_token when content off) as [[t [k q]]|x].
  - rewrite F. apply (token_iff _ _ _ _ Hb Ho) in F as (dk & Tk & _ & ->). pose proof (token_len _ _ Tk) as Lk. destruct (fst k =? 19); [reflexivity|].
    specialize (IH (off + len dk) e (off + len dk) ltac:(lia)). destruct (bd_record_tokens when fuel content (off + len dk) e (off + len dk)) as [[[t' [l p]]|x]|]; cbn [run_follows rbind] in *.
    + rewrite IH. reflexivity.
    + destruct IH as [->|B]; [left; reflexivity|right; exact B].
    + rewrite IH. reflexivity.
  - destruct F as [->|B]; [left; reflexivity|right; exact B].
Qed.

Lemma record_follow when content fuel off : is_bytes content -> 0 <= off -> run_follows (read_bsm_record fuel content off) (bd_read_record when fuel content off).
Proof.
  intros Hb Ho. unfold read_bsm_record, bd_read_record. pose proof (token_follow when content off Hb Ho) as F. destruct (bd_read_token when content off) as [[t [h q]]|x].
  - rewrite F. destruct (negb (is_header (fst h))); [left; reflexivity|]. destruct (negb (mint 1 (snd h) =? 11)); [left; reflexivity|]. cbv zeta.
    pose proof (tokens_follow when content Hb fuel off (off + mint 0 (snd h)) q Ho) as G. 
    destruct (bd_record_tokens when fuel content off (off + mint 0 (snd h)) q) as [[[t' [l p]]|x]|]; cbn [run_follows rbind] in *.
    + rewrite G. cbn [rbind]. destruct (record_size (last l h)); [|left; reflexivity]. destruct (_ =? _); [reflexivity|left; reflexivity].
    + destruct G as [->|B]; [left; reflexivity|right; exact B].
    + rewrite G. reflexivity.
  - destruct F as [->|B]; [left; reflexivity|right; exact B].
Qed.

Lemma file_follow when content : is_bytes content -> forall fuel off, 0 <= off -> run_follows (read_bsm fuel content off) (bd_read when fuel content off).
Proof.
  intros Hb. induction fuel as [|fuel IH]; intros off Ho; cbn [read_bsm bd_read]; destruct (off <? len content); try reflexivity.
  pose proof (record_follow when content (Datatypes.S fuel) off Hb Ho) as F. destruct (bd_read_record when (Datatypes.S fuel) content off) as [[[t [k p]]|x]|]; cbn [run_follows rbind] in *.
  - rewrite F. cbn [rbind]. pose proof (record_end _ _ _ _ _ Hb Ho F) as Lp. specialize (IH p ltac:(lia)). destruct (bd_read when fuel content p) as [[[t' rs]|x]|]; cbn [run_follows rbind] in *.
    + rewrite IH. reflexivity.
    + destruct IH as [->|B]; [left; reflexivity|right; exact B].
    + rewrite IH. reflexivity.
  - destruct F as [->|B]; [left; reflexivity|right; exact B].
  - rewrite F. reflexivity.
Qed.

(** ** The text determines the values *)

Lemma split_line a b c d : ~ In 10 a -> ~ In 10 b -> a ++ 10 :: c = b ++ 10 :: d -> a = b /\ c = d.
Proof.
  revert b. induction a as [|x a IH]; intros [|y b] Na Nb E; cbn [app] in E.
  - split; congruence.
  - exfalso. apply Nb. left. congruence.
  - exfalso. apply Na. left. congruence.
  - destruct (IH b) as [-> ->].
    + intros I. apply Na. right. exact I.
    + intros I. apply Nb. right. exact I.
    + congruence.
    + split; [congruence|reflexivity].
Qed.

(** The text of a value. *)
Definition cres_text (c : cres) : str := match c with CTuple v _ | CPlain v => dval_str v end.
Definition cres_line (c : cres) : Prop := ~ In 10 (cres_text c).

Lemma attribute_line d c v : cres_line c -> format_attribute (Some d) (Some (fun _ => c)) v = Ok (line d (cres_text c)).
Proof.
  intros H. unfold cres_line in H. unfold format_attribute, format_value, line. destruct c as [[s|s] b|[s|s]]; cbn [cres_text dval_str] in *; try reflexivity;
    (replace (has_char 10 s) with false by (symmetry; apply has_char_false; exact H)); reflexivity.
Qed.

Lemma dump_end data : exists y, [10] ++ fst (format_hexdump data) = y ++ [10; 10].
Proof.
  unfold format_hexdump. cbn [fst]. set (l := hexdump_loop _ _ _ _). clearbody l.
  assert (E : forall l : list str, join [10] (l ++ [[]; []]) = concat (map (fun s => s ++ [10]) l) ++ [10]).
  { clear. induction l as [|s l IH]; [reflexivity|]. cbn [app map concat]. 
    replace (join [10] (s :: l ++ [[]; []])) with (s ++ [10] ++ join [10] (l ++ [[]; []])) by (destruct l; reflexivity). rewrite IH, <- !app_assoc. reflexivity. }
  rewrite E. destruct l as [|s l] using rev_ind; [exists []; reflexivity|]. clear IHl.
  rewrite map_app, concat_app. cbn [map concat]. rewrite app_nil_r. exists ([10] ++ concat (map (fun s => s ++ [10]) l) ++ s). rewrite <- !app_assoc. reflexivity.
Qed.

Lemma ends_blank_app x : ends_blank (x ++ [10; 10]) = true.
Proof.
  unfold ends_blank, pyslice_from, slice_index. change (-2 <? 0) with true. cbv iota. rewrite len_app. change (len [10; 10]) with 2. pose proof (len_nonneg x).
  rewrite zskipn_app_len by lia. reflexivity.
Qed.

Lemma dump_newline data : In 10 (fst (format_hexdump data)).
Proof.
  destruct (dump_end data) as [y E]. destruct (fst (format_hexdump data)) as [|c r] eqn:Ed.
  - exfalso. apply (f_equal (@length Z)) in E. rewrite !app_length in E. cbn [length] in E. lia.
  - assert (I : In 10 (y ++ [10; 10])) by (apply in_or_app; right; left; reflexivity).
    destruct y as [|a y]; cbn [app] in E; [injection E as <- _; left; reflexivity|].
    assert (E' : c :: r = y ++ [10; 10]) by (injection E as _ E; exact E). rewrite E'. apply in_or_app. right. left. reflexivity.
Qed.

Lemma attribute_dump d data v : format_attribute (Some d) (Some (fun _ => CTuple (TextModel.DStr (fst (format_hexdump data))) true)) v = Ok (d ++ [58; 10] ++ fst (format_hexdump data)).
Proof.
  unfold format_attribute. destruct (has_char 10 (fst (format_hexdump data))) eqn:E; [rewrite <- app_assoc; reflexivity|].
  apply has_char_false in E. exfalso. apply E, dump_newline.
Qed.

(** Data is shown last. *)
Fixpoint data_last (l : list (String.string * bfmt * nat)) : Prop :=
  match l with
  | [] => True
  | [_] => True
  | (_, f, _) :: l => f <> BData /\ data_last l
  end.

Definition has_data (l : list (String.string * bfmt * nat)) : Prop := exists d i, In (d, BData, i) l.

Definition plain when (l : list (String.string * bfmt * nat)) (vs : list mval) : Prop :=
  forall d f i c, In (d, f, i) l -> f <> BData -> bd_format when f (nth i vs (ML [])) = Ok c -> cres_line c.

Lemma cres_eq when f v v' c c' : cres_text c = cres_text c' -> bd_format when f v = Ok c -> bd_format when f v' = Ok c' -> f <> BIp -> f <> BIp4 -> f <> BIp6 ->
  bd_format when f v = bd_format when f v'.
Proof.
  intros E H H' N1 N2 N3. rewrite H, H'. f_equal. destruct f; try contradiction; cbn [bd_format] in H, H'; destruct v, v'; try discriminate;
    repeat match goal with H : (if ?b then _ else _) = Ok _ |- _ => destruct b; [|discriminate] end;
    assert (Hc := f_equal (fun r => match r with Ok x => x | Err _ => c end) H); assert (Hc' := f_equal (fun r => match r with Ok x => x | Err _ => c' end) H'); cbv beta iota in Hc, Hc'; subst c c';
    cbn [cres_text dval_str] in E; rewrite E; reflexivity.
Qed.

(** Two structures of the same attributes with the same text. *)
Lemma lines_inj when l : data_last l -> forall vs vs' a a' ls ls' tl tl', plain when l vs -> plain when l vs' ->
  bd_attributes when l vs = Ok a -> bd_attributes when l vs' = Ok a' -> format_lines a = Ok ls -> format_lines a' = Ok ls' ->
  (has_data l -> tl = [] /\ tl' = []) -> concat ls ++ tl = concat ls' ++ tl' ->
  forall d f i, In (d, f, i) l -> exists c c', bd_format when f (nth i vs (ML [])) = Ok c /\ bd_format when f (nth i vs' (ML [])) = Ok c' /\ cres_text c = cres_text c'.
Proof.
  induction l as [|[[d f] i] l IH]; [intros ? ? ? ? ? ? ? ? ? ? ? ? ? ? ? ? ? ? ? ? []|]. intros D vs vs' a a' ls ls' tl tl' P P' A A' F F' T E d0 f0 i0 I.
  cbn [bd_attributes] in A, A'.
  destruct (bd_format when f (nth i vs (ML []))) as [c|] eqn:Ec; [|discriminate]. destruct (bd_format when f (nth i vs' (ML []))) as [c'|] eqn:Ec'; [|discriminate]. cbn [bind] in A, A'.
  destruct (bd_attributes when l vs) as [r|] eqn:Er; [|discriminate]. destruct (bd_attributes when l vs') as [r'|] eqn:Er'; [|discriminate]. cbn [bind] in A, A'.
  apply (f_equal (fun x => match x with Ok y => y | Err _ => a end)) in A. apply (f_equal (fun x => match x with Ok y => y | Err _ => a' end)) in A'. cbv beta iota in A, A'. subst a a'.
  cbn [format_lines a_value a_description a_callback] in F, F'.
  assert (Dl : f = BData \/ f <> BData) by (destruct f; (left; reflexivity) || (right; discriminate)). destruct Dl as [->|Nf].
  - destruct l as [|p l]; [|destruct p as [[? ?] ?]; destruct D as [D _]; contradiction].
    cbn [bd_attributes] in Er, Er'. injection Er as <-. injection Er' as <-. cbn [format_lines] in F, F'.
    cbn [bd_format] in Ec, Ec'. destruct (nth i vs (ML [])) as [|x| |] eqn:Ex; try discriminate. destruct (nth i vs' (ML [])) as [|x'| |] eqn:Ex'; try discriminate.
    apply (f_equal (fun x => match x with Ok y => y | Err _ => c end)) in Ec. apply (f_equal (fun x => match x with Ok y => y | Err _ => c' end)) in Ec'. cbv beta iota in Ec, Ec'. subst c c'.
    change (snd (format_hexdump x)) with true in *. change (snd (format_hexdump x')) with true in *.
    rewrite attribute_dump in F, F'. cbn [bind] in F, F'.
    apply (f_equal (fun x => match x with Ok y => y | Err _ => ls end)) in F. apply (f_equal (fun x => match x with Ok y => y | Err _ => ls' end)) in F'. cbv beta iota in F, F'. subst ls ls'.
    destruct T as [-> ->]; [exists d, i; left; reflexivity|]. cbn [concat] in E. rewrite !app_nil_r in E. apply app_inv_head in E. apply app_inv_head in E.
    destruct I as [I|[]]. injection I as <- <- <-. rewrite Ex, Ex'. do 2 eexists. split; [reflexivity|]. split; [reflexivity|]. cbn [cres_text dval_str]. exact E.
  - assert (Lc : cres_line c) by (eapply P; [left; reflexivity|exact Nf|exact Ec]). assert (Lc' : cres_line c') by (eapply P'; [left; reflexivity|exact Nf|exact Ec']).
    rewrite attribute_line in F, F' by assumption. cbn [bind] in F, F'.
    destruct (format_lines r) as [ls1|] eqn:F1; [|discriminate]. destruct (format_lines r') as [ls1'|] eqn:F1'; [|discriminate]. cbn [bind] in F, F'.
    apply (f_equal (fun x => match x with Ok y => y | Err _ => ls end)) in F. apply (f_equal (fun x => match x with Ok y => y | Err _ => ls' end)) in F'. cbv beta iota in F, F'. subst ls ls'.
    cbn [concat] in E. unfold line in E. rewrite <- !app_assoc in E. do 3 apply app_inv_head in E. 
    destruct (split_line _ _ _ _ Lc Lc' E) as [E1 E2].
    destruct I as [I|I]; [injection I as <- <- <-; exists c, c'; auto|].
    refine (IH _ vs vs' r r' ls1 ls1' tl tl' _ _ Er Er' F1 F1' _ E2 d0 f0 i0 I).
    + destruct l; [exact Logic.I|]. destruct D as [_ D]. exact D.
    + intros ? ? ? ? I'. apply (P _ _ _ _ (or_intror I')).
    + intros ? ? ? ? I'. apply (P' _ _ _ _ (or_intror I')).
    + intros (x & y & Hx). apply T. exists x, y. right. exact Hx.
Qed.

Lemma line_blank d s : ~ In 10 s -> line d s <> [] /\ ends_blank (line d s) = false.
Proof.
  intros H. destruct s as [|c s]; [|apply line_not_blank; [discriminate|apply has_char_false; exact H]].
  unfold line. replace (d ++ alignment_string d ++ s2z ": "%string ++ [] ++ [10]) with ((d ++ alignment_string d ++ [58]) ++ [32; 10]) by (rewrite <- !app_assoc; reflexivity).
  generalize (d ++ alignment_string d ++ [58]). intros x. split; [destruct x; discriminate|].
  unfold ends_blank, pyslice_from, slice_index. change (-2 <? 0) with true. cbv iota. rewrite len_app. change (len [32; 10]) with 2. pose proof (len_nonneg x).
  rewrite zskipn_app_len by lia. reflexivity.
Qed.

(** With data at the end there is no further empty line. *)
Lemma structure_data when l vs a t : has_data l -> data_last l -> bd_attributes when l vs = Ok a -> format_structure a = Ok t -> exists ls, format_lines a = Ok ls /\ t = concat ls.
Proof.
  intros H D A. unfold format_structure. destruct (format_lines a) as [ls|] eqn:F; [|discriminate]. cbn [bind]. intros E. exists ls. split; [reflexivity|].
  assert (L : exists pre y, ls = pre ++ [y ++ [10; 10]]).
  { clear E t. revert a ls A F. induction l as [|[[d f] i] l IH]; intros a ls A F; [destruct H as (? & ? & [])|]. cbn [bd_attributes] in A.
    destruct (bd_format when f (nth i vs (ML []))) as [c|] eqn:Ec; [|discriminate]. cbn [bind] in A. destruct (bd_attributes when l vs) as [r|] eqn:Er; [|discriminate]. cbn [bind] in A.
    apply (f_equal (fun x => match x with Ok y => y | Err _ => a end)) in A. cbv beta iota in A. subst a. cbn [format_lines a_value a_description a_callback] in F.
    destruct l as [|p l].
    - destruct H as (d' & i' & [I|[]]). injection I as <- -> <-. cbn [bd_attributes] in Er. injection Er as <-. cbn [format_lines] in F.
      cbn [bd_format] in Ec. destruct (nth i vs (ML [])) as [|x| |] eqn:Ex; try discriminate.
      apply (f_equal (fun x => match x with Ok y => y | Err _ => c end)) in Ec. cbv beta iota in Ec. subst c. change (snd (format_hexdump x)) with true in *.
      rewrite attribute_dump in F. cbn [bind] in F. apply (f_equal (fun x => match x with Ok y => y | Err _ => ls end)) in F. cbv beta iota in F. subst ls.
      destruct (dump_end x) as [y E]. exists [], (s2z d ++ [58] ++ y). cbn [app]. f_equal. rewrite <- !app_assoc. cbn [app]. f_equal. f_equal. rewrite <- E. reflexivity.
    - destruct (format_attribute _ _ _) as [t0|]; [|discriminate]. cbn [bind] in F. destruct (format_lines r) as [ls1|] eqn:F1; [|discriminate]. cbn [bind] in F.
      apply (f_equal (fun x => match x with Ok y => y | Err _ => ls end)) in F. cbv beta iota in F. subst ls. destruct D as [Nf D].
      destruct (IH ltac:(destruct H as (d' & i' & [I|I]); [injection I as _ -> _; contradiction|exists d', i'; exact I]) D r ls1 eq_refl F1) as (pre & y & ->).
      exists (t0 :: pre), y. reflexivity. }
  destruct L as (pre & y & ->). rewrite rev_app_distr in E. cbn [rev app] in E. rewrite ends_blank_app in E.
  destruct (y ++ [10; 10]) eqn:Ey; [destruct y; discriminate|]. cbn [negb] in E. congruence.
Qed.

(** The attributes: the token type is the first, data the last. *)
Lemma table_facts t l : debug_attributes t = Some l -> (exists l', l = ("Token type"%string, BHex 2, 0%nat) :: l') /\ data_last l /\
  (forall d i, In (d, BString, i) l -> In t [0x11; 0x23; 0x28; 0x2d; 0x60; 0x71; 0x82] /\ (0 < i)%nat).
Proof.
  intros H. unfold debug_attributes in H. destruct t as [|p|p]; try discriminate H; do 8 (try destruct p as [p|p|]; try discriminate H); injection H as <-;
    (split; [eexists; reflexivity|]); (split; [cbn [data_last]; repeat split; discriminate|]);
    intros d i I; cbn [In] in I; repeat (destruct I as [I|I]; [try discriminate I|]); try contradiction; (assert (Hi := f_equal snd I)); cbn [snd] in Hi; subst i; cbn [In]; (split; [tauto|lia]).
Qed.

Lemma structure_first when k text : bd_structure when k = Ok text -> exists rest, text = line (s2z "Token type"%string) (s2z "0x"%string ++ fmt_x 2 (fst k)) ++ rest.
Proof.
  unfold bd_structure. destruct (debug_attributes (fst k)) as [l|] eqn:D; [|discriminate]. apply table_facts in D as ((l' & ->) & _). cbn [bd_attributes nth bd_format bind].
  destruct (bd_attributes when l' (MI (fst k) :: snd k)) as [a|]; [|discriminate]. cbn [bind]. unfold format_structure. cbn [format_lines a_value a_description a_callback].
  rewrite attribute_line.
  2:{ unfold cres_line. cbn [cres_text dval_str]. unfold format_hex. cbn [fst]. apply has_char_false. change (has_char 10 ([48; 120] ++ fmt_x 2 (fst k))) with (has_char 10 (fmt_x 2 (fst k))). apply fmt_one_line. lia. }
  cbn [bind]. destruct (format_lines a) as [ls|]; [|discriminate]. cbn [bind]. intros E. apply (f_equal (fun r => match r with Ok x => x | Err _ => text end)) in E. cbv beta iota in E. subst text.
  destruct (match rev _ with [] => true | _ => _ end); cbn [concat app]; eexists; reflexivity.
Qed.

Definition same_text when (f : bfmt) (v v' : mval) : Prop :=
  exists c c', bd_format when f v = Ok c /\ bd_format when f v' = Ok c' /\ cres_text c = cres_text c'.

Lemma structure_inj when k k' text : plain when (match debug_attributes (fst k) with Some l => l | None => [] end) (MI (fst k) :: snd k) ->
  plain when (match debug_attributes (fst k') with Some l => l | None => [] end) (MI (fst k') :: snd k') ->
  bd_structure when k = Ok text -> bd_structure when k' = Ok text ->
  fst k = fst k' /\ match debug_attributes (fst k) with
                    | Some l => Forall (fun p => same_text when (snd (fst p)) (nth (snd p) (MI (fst k) :: snd k) (ML [])) (nth (snd p) (MI (fst k) :: snd k') (ML []))) l
                    | None => False
                    end.
Proof.
  intros P P' E E'. assert (Et : fst k = fst k').
  { destruct (structure_first _ _ _ E) as (r & E1). destruct (structure_first _ _ _ E') as (r' & E2). rewrite E1 in E2. unfold line in E2. rewrite <- !app_assoc in E2. do 4 apply app_inv_head in E2.
    apply split_line in E2 as [E2 _].
    - apply (fmt_int_inj 16 2); [lia|exact E2].
    - apply has_char_false, fmt_one_line. lia.
    - apply has_char_false, fmt_one_line. lia. }
  split; [exact Et|]. rewrite <- Et in *. unfold bd_structure in E, E'. rewrite <- Et in E'. destruct (debug_attributes (fst k)) as [l|] eqn:D; [|discriminate].
  apply table_facts in D as (_ & DL & _).
  destruct (bd_attributes when l (MI (fst k) :: snd k)) as [a|] eqn:A; [|discriminate]. destruct (bd_attributes when l (MI (fst k) :: snd k')) as [a'|] eqn:A'; [|discriminate]. cbn [bind] in E, E'.
  assert (X : exists ls ls' tl tl', format_lines a = Ok ls /\ format_lines a' = Ok ls' /\ (has_data l -> tl = [] /\ tl' = []) /\ concat ls ++ tl = concat ls' ++ tl').
  { assert (DD : has_data l \/ ~ has_data l).
    { clear. induction l as [|[[d f] i] l IH]; [right; intros (? & ? & [])|]. destruct IH as [(d' & i' & I)|N]; [left; exists d', i'; right; exact I|].
      assert (Df : f = BData \/ f <> BData) by (destruct f; (left; reflexivity) || (right; discriminate)). destruct Df as [->|Nf]; [left; exists d, i; left; reflexivity|].
      right. intros (d' & i' & [I|I]); [injection I as _ I _; contradiction|]. apply N. exists d', i'. exact I. }
    destruct DD as [Hd|Nd].
    - destruct (structure_data _ _ _ _ _ Hd DL A E) as (ls & F & T1). destruct (structure_data _ _ _ _ _ Hd DL A' E') as (ls' & F' & T2).
      exists ls, ls', [], []. rewrite !app_nil_r. split; [exact F|]. split; [exact F'|]. split; [auto|]. congruence.
    - unfold format_structure in E, E'. destruct (format_lines a) as [ls|] eqn:F; [|discriminate]. destruct (format_lines a') as [ls'|] eqn:F'; [|discriminate]. cbn [bind] in E, E'.
      set (b := match rev ls with [] => true | _ => _ end) in E. set (b' := match rev ls' with [] => true | _ => _ end) in E'.
      exists ls, ls', (if b then [10] else []), (if b' then [10] else []). split; [reflexivity|]. split; [reflexivity|]. split; [intros; contradiction|].
      apply (f_equal (fun r => match r with Ok x => x | Err _ => text end)) in E. apply (f_equal (fun r => match r with Ok x => x | Err _ => text end)) in E'. cbv beta iota in E, E'.
      clearbody b b'. destruct b; destruct b'; cbv iota in *; try rewrite concat_app in E; try rewrite concat_app in E'; cbn [concat] in E, E'; rewrite ?app_nil_r in *; congruence. }
  destruct X as (ls & ls' & t1 & t2 & F & F' & T & C).
  apply Forall_forall. intros [[d f] i] I. cbn [fst snd]. exact (lines_inj when l DL _ _ _ _ _ _ _ _ P P' A A' F F' T C d f i I).
Qed.

(** ** The formats *)

Lemma in_join c sep l : In c (join [sep] l) -> c = sep \/ exists s, In s l /\ In c s.
Proof.
  induction l as [|s l IH]; [intros []|]. intros I. destruct l as [|s' l]; [right; exists s; split; [left; reflexivity|exact I]|].
  change (join [sep] (s :: s' :: l)) with (s ++ [sep] ++ join [sep] (s' :: l)) in I. apply in_app_or in I as [I|[I|I]].
  - right. exists s. split; [left; reflexivity|exact I].
  - left. symmetry. exact I.
  - destruct (IH I) as [E|(x & Ix & Ic)]; [left; exact E|right; exists x; split; [right; exact Ix|exact Ic]].
Qed.

Lemma fmt_no base w n c : 2 <= base <= 16 -> c <> 45 -> ~ is_digit_char c -> ~ In c (fmt_int base w n).
Proof. intros H N D I. pose proof (fmt_int_chars base w n H) as F. rewrite Forall_forall in F. destruct (F c I); contradiction. Qed.

Lemma nl_digit : ~ is_digit_char 10. Proof. unfold is_digit_char. lia. Qed.

Lemma names_one_line n : ~ In 10 (name_of event_types n).
Proof.
  assert (H : forallb (fun p => negb (has_char 10 (s2z (snd p)))) event_types = true) by (vm_compute; reflexivity).
  unfold name_of. destruct (find _ event_types) as [[x s]|] eqn:F; [|apply has_char_false; reflexivity].
  apply find_some in F as [I _]. rewrite forallb_forall in H. specialize (H _ I). cbn [snd] in H. apply negb_true_iff in H. apply has_char_false. exact H.
Qed.

Lemma ipv4_one_line d s : fst (format_ipv4 d) = Some s -> ~ In 10 s.
Proof.
  unfold format_ipv4. destruct (_ =? _); [|discriminate]. cbn [fst]. intros [= <-] I. apply in_join in I as [I|(x & Ix & I)]; [discriminate|].
  apply in_map_iff in Ix as (n & <- & _). revert I. apply fmt_no; [lia|discriminate|exact nl_digit].
Qed.

Lemma ipv6_one_line d s : fst (format_ipv6 d) = Some s -> ~ In 10 s.
Proof.
  unfold format_ipv6. destruct (_ =? _); [|discriminate]. cbn [fst]. intros [= <-] I. apply in_join in I as [I|(x & Ix & I)]; [discriminate|].
  apply in_map_iff in Ix as (n & <- & _). revert I. apply fmt_no; [lia|discriminate|exact nl_digit].
Qed.

Lemma address_line a : (forall s, fst a = Some s -> ~ In 10 s) -> cres_line (address a).
Proof. intros H. unfold cres_line, address. cbn [cres_text]. destruct a as [[s|] b]; cbn [fst snd] in *; cbn [dval_str]; [apply H; reflexivity|apply has_char_false; reflexivity]. Qed.

Lemma posix_one_line when n : (forall z, ~ In 10 (when z)) -> ~ In 10 (posix_text when n).
Proof.
  intros H. unfold posix_text. destruct (n =? 0); [apply has_char_false; reflexivity|]. destruct (when n) as [|c s] eqn:E.
  - intros I. apply in_app_or in I as [I|I]; [revert I; apply has_char_false; reflexivity|]. revert I. apply fmt_no; [lia|discriminate|exact nl_digit].
  - rewrite <- E. intros I. apply in_app_or in I as [I|I]; [exact (H _ I)|]. revert I. apply has_char_false. reflexivity.
Qed.

Lemma event_one_line n : ~ In 10 (event_text n).
Proof.
  unfold event_text. intros I. apply in_app_or in I as [I|I]; [revert I; apply has_char_false; reflexivity|].
  apply in_app_or in I as [I|I]; [revert I; apply fmt_no; [lia|discriminate|exact nl_digit]|].
  apply in_app_or in I as [I|I]; [revert I; apply has_char_false; reflexivity|].
  apply in_app_or in I as [I|I]; [exact (names_one_line _ I)|revert I; apply has_char_false; reflexivity].
Qed.

(** All values but data are shown in one line. *)
Lemma token_plain when k : (forall z, ~ In 10 (when z)) -> one_line k -> plain when (match debug_attributes (fst k) with Some l => l | None => [] end) (MI (fst k) :: snd k).
Proof.
  intros Hw O d f i c I N E. destruct (debug_attributes (fst k)) as [l|] eqn:D; [|destruct I]. apply table_facts in D as (_ & _ & Ts).
  destruct f; cbn [bd_format] in E; destruct (nth i (MI (fst k) :: snd k) (ML [])) as [z|s|?|?] eqn:En; try discriminate;
    try (destruct (_ || _); [|discriminate]);
    (apply (f_equal (fun r => match r with Ok x => x | Err _ => c end)) in E; cbv beta iota in E; subst c); try contradiction.
  - apply fmt_no; [lia|discriminate|exact nl_digit].
  - unfold cres_line, format_hex. cbn [cres_text dval_str fst]. intros I'. apply in_app_or in I' as [I'|I']; [revert I'; apply has_char_false; reflexivity|]. revert I'. apply fmt_no; [lia|discriminate|exact nl_digit].
  - destruct (Ts d i I) as [It Hi]. apply (O It). destruct i as [|i]; [lia|]. cbn [nth] in En. rewrite <- En. apply nth_In.
    destruct (Nat.lt_ge_cases i (length (snd k))) as [L|L]; [exact L|]. rewrite nth_overflow in En by exact L. discriminate.
  - exact (event_one_line _).
  - apply posix_one_line. exact Hw.
  - apply fmt_no; [lia|discriminate|exact nl_digit].
  - apply address_line. unfold format_ip. intros a. destruct (len s =? 4); [apply ipv4_one_line|]. destruct (len s =? 16); [apply ipv6_one_line|discriminate].
  - apply address_line, ipv4_one_line.
  - apply address_line, ipv6_one_line.
Qed.

Ltac same H := let c := fresh in let c' := fresh in let E := fresh in let E' := fresh in let T := fresh in
  destruct H as (c & c' & E & E' & T); cbn [bd_format] in E, E';
  try (destruct (_ || _) eqn:?; [|discriminate E]); try (destruct (_ || _) eqn:? in E'; [|discriminate E']);
  apply (f_equal (fun r => match r with Ok x => x | Err _ => c end)) in E; apply (f_equal (fun r => match r with Ok x => x | Err _ => c' end)) in E'; cbv beta iota in E, E'; subst c c'; cbn [cres_text dval_str] in T.

Lemma same_dec when a b : same_text when BDec (MI a) (MI b) -> a = b.
Proof. intros H. same H. apply (fmt_int_inj 10 0); [lia|assumption]. Qed.
Lemma same_hex when w a b : same_text when (BHex w) (MI a) (MI b) -> a = b.
Proof. intros H. same H. unfold format_hex in *. cbn [fst] in *. apply (fmt_int_inj 16 w); [lia|]. eapply app_inv_head. eassumption. Qed.
Lemma same_data when a b : is_bytes a -> is_bytes b -> same_text when BData (MB a) (MB b) -> a = b.
Proof. intros Ha Hb H. same H. apply format_hexdump_inj; assumption. Qed.
Lemma same_string when a b : same_text when BString (MB a) (MB b) -> rstrip 0 a = rstrip 0 b.
Proof. intros H. same H. assumption. Qed.

Lemma app_last {A} (a b : list A) x y : a ++ [x] = b ++ [y] -> x = y.
Proof. intros E. apply app_inj_tail in E. tauto. Qed.

Lemma same_posix when a b : (forall z, when z <> []) -> (forall z z', when z = when z' -> z = z') -> same_text when BPosix (MI a) (MI b) -> a = b.
Proof.
  intros Hn Hi H. same H. unfold posix_text in *.
  assert (U : forall z, match when z with [] => s2z "0x"%string ++ fmt_x 8 z | s => s ++ s2z " UTC"%string end = when z ++ s2z " UTC"%string) by (intros z; specialize (Hn z); destruct (when z); [contradiction|reflexivity]).
  rewrite !U in *.
  assert (X : forall s : str, s ++ s2z " UTC"%string <> s2z "Not set (0)"%string).
  { intros s E. change (s2z " UTC"%string) with ([32; 85; 84] ++ [67]) in E. rewrite app_assoc in E. change (s2z "Not set (0)"%string) with (s2z "Not set (0"%string ++ [41]) in E. apply app_last in E. discriminate. }
  destruct (Z.eqb_spec a 0), (Z.eqb_spec b 0); subst; try reflexivity.
  - exfalso. eapply X. symmetry. eassumption.
  - exfalso. eapply X. eassumption.
  - apply Hi. eapply app_inv_tail. eassumption.
Qed.

Lemma split_char (c : Z) (a b x y : list Z) : ~ In c a -> ~ In c b -> a ++ c :: x = b ++ c :: y -> a = b.
Proof.
  revert b. induction a as [|u a IH]; intros [|v b] Na Nb E; cbn [app] in E.
  - reflexivity.
  - exfalso. apply Nb. left. congruence.
  - exfalso. apply Na. left. congruence.
  - f_equal; [congruence|]. apply IH.
    + intros I. apply Na. right. exact I.
    + intros I. apply Nb. right. exact I.
    + congruence.
Qed.

Lemma same_event when a b : same_text when BEvent (MI a) (MI b) -> a = b.
Proof.
  intros H. same H. unfold event_text in *. match goal with E : _ = _ |- _ => apply app_inv_head in E; change (s2z " ("%string) with [32; 40] in E; cbn [app] in E; apply split_char in E end.
  - eapply (fmt_int_inj 16 4); [lia|eassumption].
  - apply fmt_no; [lia|discriminate|unfold is_digit_char; lia].
  - apply fmt_no; [lia|discriminate|unfold is_digit_char; lia].
Qed.

Lemma same_net when a b : same_text when BNet (MI a) (MI b) -> a = b /\ (a = 4 \/ a = 16).
Proof.
  intros (c & c' & E & E' & T). cbn [bd_format] in E, E'. destruct ((a =? 4) || (a =? 16)) eqn:Ea; [|discriminate]. destruct ((b =? 4) || (b =? 16)); [|discriminate].
  apply (f_equal (fun r => match r with Ok x => x | Err _ => c end)) in E. apply (f_equal (fun r => match r with Ok x => x | Err _ => c' end)) in E'. cbv beta iota in E, E'. subst c c'. cbn [cres_text dval_str] in T.
  split; [apply (fmt_int_inj 10 0); [lia|exact T]|]. apply orb_true_iff in Ea. destruct Ea as [Ea|Ea]; apply Z.eqb_eq in Ea; auto.
Qed.

Lemma same_ip4 when a b : len a = 4 -> len b = 4 -> same_text when BIp4 (MB a) (MB b) -> a = b.
Proof.
  intros La Lb H. same H. unfold address in *. cbn [cres_text] in *. apply (TextProofs.ipv4_inj a b (join [46] (map fmt_d a))); unfold format_ipv4 in *; rewrite ?La, ?Lb in *; cbn [Z.eqb Pos.eqb fst dval_str] in *; congruence.
Qed.

Lemma same_ip6 when a b : is_bytes a -> is_bytes b -> len a = 16 -> len b = 16 -> same_text when BIp6 (MB a) (MB b) -> a = b.
Proof.
  intros Ha Hb La Lb H. same H. unfold address in *. cbn [cres_text] in *. apply (TextProofs.ipv6_inj a b (join [58] (map (fmt_x 4) (octet_pairs a))) Ha Hb); unfold format_ipv6 in *; rewrite ?La, ?Lb in *; cbn [Z.eqb Pos.eqb fst dval_str] in *; congruence.
Qed.

Lemma same_ip when a b : is_bytes a -> is_bytes b -> len a = len b -> len a = 4 \/ len a = 16 -> same_text when BIp (MB a) (MB b) -> a = b.
Proof.
  intros Ha Hb L [La|La] H; rewrite La in L; symmetry in L.
  - apply (same_ip4 when); try assumption. unfold same_text in *. cbn [bd_format] in *. unfold format_ip in H. rewrite La, L in H. exact H.
  - apply (same_ip6 when); try assumption. unfold same_text in *. cbn [bd_format] in *. unfold format_ip in H. rewrite La, L in H. exact H.
Qed.

Lemma rstrip_zeros s : exists n, s = rstrip 0 s ++ repeat 0 n.
Proof.
  induction s as [|x s [n IH]]; [exists O; reflexivity|]. cbn [rstrip]. destruct (rstrip 0 s) as [|y r] eqn:E.
  - destruct (Z.eqb_spec x 0) as [->|N].
    + exists (Datatypes.S n). cbn [app repeat] in *. congruence.
    + exists n. cbn [app] in *. congruence.
  - exists n. cbn [app] in *. congruence.
Qed.

Lemma rstrip_inj a b : len a = len b -> rstrip 0 a = rstrip 0 b -> a = b.
Proof.
  intros L E. destruct (rstrip_zeros a) as [n Ea]. destruct (rstrip_zeros b) as [m Eb]. rewrite Ea, Eb, E in L. rewrite !len_app, !len_repeat in L. assert (n = m) by lia. subst m. congruence.
Qed.

Lemma rstrip_none s : ~ In 0 s -> rstrip 0 s = s.
Proof.
  intros N. destruct (rstrip_zeros s) as [n E]. destruct n as [|n]; [rewrite app_nil_r in E; symmetry; exact E|]. exfalso. apply N. rewrite E. apply in_or_app. right. left. reflexivity.
Qed.

(** The text of a token determines the values that are shown. *)
Ltac use_same H := cbn [fst snd nth] in H; repeat (apply Forall_cons_iff in H as [? H]; cbn [fst snd nth] in *);
  repeat match goal with
  | S : same_text _ BDec _ _ |- _ => apply same_dec in S; subst
  | S : same_text _ (BHex _) _ _ |- _ => apply same_hex in S; subst
  | S : same_text _ BEvent _ _ |- _ => apply same_event in S; subst
  | S : same_text _ BNet _ _ |- _ => apply same_net in S as [? ?]; subst
  | S : same_text _ BPosix _ _ |- _ => apply same_posix in S; [subst|assumption|assumption]
  | S : same_text _ BString _ _ |- _ => apply same_string in S
  end.
Ltac bytes_out := repeat match goal with
  | B : is_bytes (_ ++ _) |- _ => apply Forall_app in B as [? B]
  | B : is_bytes (_ :: _) |- _ => apply Forall_cons_iff in B as [_ B]
  | B : Forall is_byte (_ ++ _) |- _ => apply Forall_app in B as [? B]
  end.

Lemma text_inj when k k' d d' text : (forall z, ~ In 10 (when z)) -> (forall z, when z <> []) -> (forall z z', when z = when z' -> z = z') ->
  token_enc k d -> token_enc k' d' -> is_bytes d -> is_bytes d' -> one_line k -> one_line k' -> bd_structure when k = Ok text -> bd_structure when k' = Ok text ->
  fst k = fst k' /\ shown_values k = shown_values k'.
Proof.
  intros Hw Hn Hi T T' B B' O O' E E'. destruct (structure_inj when k k' text (token_plain _ _ Hw O) (token_plain _ _ Hw O') E E') as [Et H]. split; [exact Et|].
  clear O O' E E' Hw. apply token_mem_in in T as (ms & data & M & ME & ->). apply token_mem_in in T' as (ms' & data' & M' & ME' & ->). rewrite <- Et in M'. rewrite M in M'.
  assert (ms' = ms) by congruence. subst ms'. clear M'. destruct k as [t vs], k' as [t' vs']. unfold shown_values. cbn [fst snd] in *. subst t'.
  apply Forall_cons_iff in B as [_ B]. apply Forall_cons_iff in B' as [_ B'].
  members t M; cbn [debug_attributes] in H; try contradiction; unfold bsm_subject, bsm_header in ME, ME'; cbn [app repeat] in ME, ME'; mem_out; cbn [mint nth_error app] in *; bytes_out; use_same H; cbn [Z.eqb Pos.eqb tl].
  all: repeat match goal with
    | S : same_text _ BIp4 (MB ?a) (MB ?b) |- _ => apply same_ip4 in S; [subst|assumption|assumption]
    | S : same_text _ BIp6 (MB ?a) (MB ?b) |- _ => apply same_ip6 in S; [subst|assumption..]
    | S : same_text _ BData (MB ?a) (MB ?b) |- _ => apply same_data in S; [subst|assumption..]
    | S : same_text _ BIp (MB ?a) (MB ?b) |- _ => apply same_ip in S; [subst|assumption|assumption|lia|lia]
    | S : rstrip 0 ?a = rstrip 0 ?b |- _ => first [apply rstrip_inj in S; [subst|lia]|rewrite !rstrip_none in S by assumption; subst]
    end.
  all: try reflexivity.
Qed.
