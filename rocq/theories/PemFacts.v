(** * The model of encoding/pem reads exactly the blocks of PemSpec.v. *)
From Coq Require Import Lia.
From Verif Require Import GoStr StrFacts Codec CodecSpec CodecFacts Http MultipartFacts DecodeFacts Pem PemSpec.

Local Notation bs := list_ascii_of_string.

(** ** Lines *)
Lemma lines_cons x l : lines (x :: l) = (x ++ LF ++ lines l)%string.
Proof. unfold lines, LF. destruct l as [|y l]; cbn [map String.concat]; [rewrite app_nil_r_s; reflexivity|]. rewrite app_assoc_s. reflexivity. Qed.
Lemma lines_nil : lines [] = "".
Proof. reflexivity. Qed.
Lemma lf_app s : (LF ++ s)%string = lf s.
Proof. reflexivity. Qed.
Lemma lines_app l m : lines (l ++ m) = (lines l ++ lines m)%string.
Proof. induction l as [|x l IH]; [reflexivity|]. cbn [app]. rewrite !lines_cons, IH, !app_assoc_s. reflexivity. Qed.

Lemma blank_iff a : (Ascii.eqb a " " || Ascii.eqb a "009")%bool = true <-> is_blank a.
Proof. unfold is_blank. rewrite orb_true_iff, !Ascii.eqb_eq. reflexivity. Qed.
Lemma only_blanks_cons a s : only_blanks (String a s) <-> is_blank a /\ only_blanks s.
Proof.
  unfold only_blanks. cbn [bs]. split.
  - intros H. split; [apply H; simpl; auto|]. intros b HB. apply H. simpl. auto.
  - intros [H1 H2] b [<-|HB]; auto.
Qed.
Lemma only_blanks_nil : only_blanks "".
Proof. intros a []. Qed.

Lemma trim_all b : only_blanks b -> trim_blanks b = "".
Proof.
  induction b as [|a b IH]; intros H; [reflexivity|]. apply only_blanks_cons in H. destruct H as [HA HB]. cbn [trim_blanks].
  rewrite IH by exact HB. apply blank_iff in HA. rewrite HA. reflexivity.
Qed.
Lemma trim_keeps x d b : ~ is_blank d -> only_blanks b -> trim_blanks (x ++ String d b) = (x ++ String d "")%string.
Proof.
  intros HD HB. induction x as [|a x IH].
  - cbn [append trim_blanks]. rewrite (trim_all b HB). destruct (Ascii.eqb d " " || Ascii.eqb d "009")%bool eqn:E; [|reflexivity].
    apply blank_iff in E. contradiction.
  - change ((String a x ++ String d b)%string) with (String a (x ++ String d b)%string). cbn [trim_blanks]. rewrite IH.
    destruct x; reflexivity.
Qed.
Lemma trim_split s : exists b, s = (trim_blanks s ++ b)%string /\ only_blanks b.
Proof.
  induction s as [|a s (b & E & HB)]; [exists ""; split; [reflexivity|apply only_blanks_nil]|]. cbn [trim_blanks].
  destruct (trim_blanks s) as [|c t] eqn:ET.
  - destruct (Ascii.eqb a " " || Ascii.eqb a "009")%bool eqn:EA.
    + exists (String a s). split; [reflexivity|]. apply only_blanks_cons. split; [apply blank_iff; exact EA|]. rewrite E. exact HB.
    + exists b. split; [rewrite E at 1; reflexivity|exact HB].
  - exists b. split; [rewrite E at 1; reflexivity|exact HB].
Qed.
Lemma drop_split s : s = drop_cr s \/ s = (drop_cr s ++ String "013" "")%string.
Proof.
  induction s as [|a s IH]; [auto|]. destruct s as [|b s].
  - cbn [drop_cr]. destruct (Ascii.eqb_spec a "013") as [->|]; auto.
  - change (drop_cr (String a (String b s))) with (String a (drop_cr (String b s))). destruct IH as [IH|IH]; [left|right]; rewrite IH at 1; reflexivity.
Qed.
Lemma drop_end x d : d <> "013"%char -> drop_cr (x ++ String d "") = (x ++ String d "")%string.
Proof.
  intros HD. induction x as [|a x IH].
  - cbn. destruct (Ascii.eqb_spec d "013") as [->|]; [contradiction|reflexivity].
  - change ((String a x ++ String d "")%string) with (String a (x ++ String d "")%string).
    destruct (x ++ String d "")%string as [|b y] eqn:E; [destruct x; discriminate E|].
    change (drop_cr (String a (String b y))) with (String a (drop_cr (String b y))). rewrite IH. reflexivity.
Qed.
Lemma drop_yes x : drop_cr (x ++ String "013" "") = x.
Proof.
  induction x as [|a x IH]; [reflexivity|]. change ((String a x ++ String "013" "")%string) with (String a (x ++ String "013" "")%string).
  destruct (x ++ String "013" "")%string as [|b y] eqn:E; [destruct x; discriminate E|].
  change (drop_cr (String a (String b y))) with (String a (drop_cr (String b y))). rewrite IH. reflexivity.
Qed.
(* a text ends in nothing or in some character *)
Lemma last_char s : s = "" \/ exists x d, s = (x ++ String d "")%string.
Proof.
  induction s as [|a s IH]; [auto|]. right. destruct IH as [->|(x & d & ->)]; [exists "", a; reflexivity|exists (String a x), d; reflexivity].
Qed.
Lemma drop_blanks x b : only_blanks b -> (forall y, x <> (y ++ String "013" "")%string) -> drop_cr (x ++ b) = (x ++ b)%string.
Proof.
  intros HB HX. destruct (last_char b) as [->|(y & d & ->)].
  - rewrite app_nil_r_s. destruct (last_char x) as [->|(y & d & ->)]; [reflexivity|]. apply drop_end. intros ->. exact (HX y eq_refl).
  - rewrite <- app_assoc_s. apply drop_end. intros ->. destruct (HB "013"%char) as [E|E]; try discriminate E. rewrite bytes_app. apply in_or_app. simpl. auto.
Qed.
Lemma tail_off x d sp : ~ is_blank d -> d <> "013"%char -> line_tail sp -> trim_blanks (drop_cr ((x ++ String d "") ++ sp)) = (x ++ String d "")%string.
Proof.
  intros HD HC (b & HB & [->| ->]).
  - rewrite drop_blanks; [|exact HB|].
    + rewrite app_assoc_s. apply trim_keeps; assumption.
    + intros y E. assert (X : d = "013"%char); [|contradiction]. clear -E. revert y E. induction x as [|a x IH]; intros y E.
      * destruct y as [|c y]; [injection E as E; exact E|]. destruct y; discriminate E.
      * destruct y as [|c y]; [destruct x; discriminate E|]. simpl in E. injection E as _ E. exact (IH y E).
  - rewrite <- app_assoc_s, drop_yes, app_assoc_s. apply trim_keeps; assumption.
Qed.
Lemma tail_blank sp : line_tail sp -> trim_blanks (drop_cr sp) = "".
Proof.
  intros (b & HB & [->| ->]).
  - destruct (last_char b) as [->|(x & d & ->)]; [reflexivity|]. rewrite drop_end; [apply trim_all; exact HB|]. intros ->.
    destruct (HB "013"%char) as [E|E]; try discriminate E. rewrite bytes_app. apply in_or_app. simpl. auto.
  - rewrite drop_yes. apply trim_all. exact HB.
Qed.
(* what is cut off a line *)
Lemma cut_off l : exists sp, l = (trim_blanks (drop_cr l) ++ sp)%string /\ line_tail sp.
Proof.
  destruct (trim_split (drop_cr l)) as (b & E & HB). destruct (drop_split l) as [H|H].
  - exists b. split; [congruence|]. exists b. auto.
  - exists (b ++ String "013" "")%string. split; [rewrite <- app_assoc_s, <- E; exact H|]. exists b. auto.
Qed.

Lemma unbroken_has s : unbroken s <-> has_byte "010" s = false.
Proof. unfold unbroken. rewrite has_byte_false. reflexivity. Qed.
Lemma colon_has s : colon_in s <-> has_byte ":" s = true.
Proof. unfold colon_in. rewrite has_byte_In. reflexivity. Qed.
Lemma unbroken_app s t : unbroken (s ++ t) <-> unbroken s /\ unbroken t.
Proof. unfold unbroken. rewrite bytes_app. split; [intros H; split; intros X; apply H; apply in_or_app; auto|intros [H1 H2] X; apply in_app_or in X; tauto]. Qed.

Lemma get_line_lf l r : unbroken l -> get_line (l ++ lf r) = (trim_blanks (drop_cr l), r).
Proof. intros H. unfold get_line, lf. rewrite cut_app by (apply unbroken_has; exact H). reflexivity. Qed.
Lemma get_line_end l : unbroken l -> get_line l = (trim_blanks l, "").
Proof. intros H. unfold get_line. rewrite cut_none by (apply unbroken_has; exact H). reflexivity. Qed.
Lemma get_line_inv s line r : get_line s = (line, r) ->
  (exists l, unbroken l /\ s = (l ++ lf r)%string /\ line = trim_blanks (drop_cr l)) \/ (unbroken s /\ r = "" /\ line = trim_blanks s).
Proof.
  unfold get_line. destruct (cut "010" s) as [[l r'] f] eqn:E. apply cut_spec in E. destruct E as [HL E]. apply unbroken_has in HL.
  destruct f; intros H; injection H as <- <-.
  - left. exists l. auto.
  - destruct E as [-> ->]. right. auto.
Qed.

(** ** Searching *)
Lemma index_sound p s x y : index_of p s = Some (x, y) -> s = (x ++ p ++ y)%string.
Proof.
  revert x y. induction s as [|a s IH]; intros x y; cbn [index_of].
  - destruct (after_prefix p "") as [r|] eqn:E; [|discriminate]. intros H. injection H as <- <-. apply after_prefix_iff in E. exact E.
  - destruct (after_prefix p (String a s)) as [r|] eqn:E.
    + intros H. injection H as <- <-. apply after_prefix_iff in E. exact E.
    + destruct (index_of p s) as [[x' y']|]; [|discriminate]. intros H. injection H as <- <-. rewrite (IH x' y' eq_refl). reflexivity.
Qed.
Lemma index_skip p a s : a <> "010"%char -> index_of (lf p) (String a s) = option_map (fun x => (String a (fst x), snd x)) (index_of (lf p) s).
Proof. intros H. cbn [index_of lf after_prefix]. destruct (Ascii.eqb_spec "010" a) as [<-|]; [contradiction|reflexivity]. Qed.
Lemma index_here p s r : after_prefix p s = Some r -> index_of (lf p) (lf s) = Some ("", r).
Proof. intros H. unfold lf. cbn [index_of after_prefix]. rewrite Ascii.eqb_refl, H. reflexivity. Qed.
Lemma index_later p s : after_prefix p s = None -> index_of (lf p) (lf s) = option_map (fun x => (lf (fst x), snd x)) (index_of (lf p) s).
Proof. intros H. unfold lf. cbn [index_of after_prefix]. rewrite Ascii.eqb_refl, H. reflexivity. Qed.
Lemma index_line p l s : unbroken l -> option_map snd (index_of (lf p) (l ++ lf s)) =
  match after_prefix p s with Some r => Some r | None => option_map snd (index_of (lf p) s) end.
Proof.
  induction l as [|a l IH]; intros H.
  - change (("" ++ lf s)%string) with (lf s). destruct (after_prefix p s) as [r|] eqn:E.
    + rewrite (index_here _ _ _ E). reflexivity.
    + rewrite (index_later _ _ E). destruct (index_of (lf p) s); reflexivity.
  - change ((String a l ++ lf s)%string) with (String a (l ++ lf s)%string). rewrite index_skip by (intros ->; apply H; simpl; auto).
    rewrite <- IH by (intros X; apply H; simpl; auto). destruct (index_of (lf p) (l ++ lf s)); reflexivity.
Qed.
Lemma not_across p l s : unbroken p -> after_prefix p l = None -> after_prefix p (l ++ lf s) = None.
Proof.
  intros HP H. apply after_prefix_none. intros r E. apply app_cut in E. destruct E as [(q & -> & _)|(x & m & -> & E)].
  - rewrite after_prefix_app in H. discriminate H.
  - unfold lf in E. injection E as <- _. apply HP. rewrite bytes_app. apply in_or_app. right. simpl. auto.
Qed.
Lemma begin_unbroken : unbroken pem_begin.
Proof. apply unbroken_has. reflexivity. Qed.
Lemma end_unbroken : unbroken pem_end.
Proof. apply unbroken_has. reflexivity. Qed.

Lemma start_here r : pem_start (pem_begin ++ r) = Some r.
Proof. unfold pem_start. rewrite after_prefix_app. reflexivity. Qed.
Lemma start_skips x s : unbroken x -> after_prefix pem_begin x = None -> pem_start (x ++ lf s) = pem_start s.
Proof.
  intros HU HX. unfold pem_start at 1. rewrite not_across; [|exact begin_unbroken|exact HX]. rewrite index_line by exact HU. reflexivity.
Qed.
Lemma start_sound s r : pem_start s = Some r -> exists before, s = (before ++ pem_begin ++ r)%string /\ line_start before.
Proof.
  unfold pem_start. destruct (after_prefix pem_begin s) as [r'|] eqn:E.
  - intros H. injection H as <-. apply after_prefix_iff in E. exists "". split; [exact E|left; reflexivity].
  - destruct (index_of (lf pem_begin) s) as [[x y]|] eqn:EI; [|discriminate]. cbn. intros H. injection H as <-. apply index_sound in EI.
    exists (x ++ LF)%string. split; [rewrite app_assoc_s; exact EI|right; eauto].
Qed.

(** ** Headers *)
Lemma trim_colon l : has_byte ":" (trim_blanks l) = has_byte ":" l.
Proof.
  destruct (trim_split l) as (b & E & HB). rewrite E at 2. rewrite has_byte_app. destruct (has_byte ":" b) eqn:X; [|rewrite orb_false_r; reflexivity].
  apply has_byte_In in X. destruct (HB _ X) as [Y|Y]; discriminate Y.
Qed.
Lemma drop_colon l : has_byte ":" (drop_cr l) = has_byte ":" l.
Proof. destruct (drop_split l) as [E|E]; rewrite E at 2; [reflexivity|]. rewrite has_byte_app. cbn. rewrite orb_false_r. reflexivity. Qed.
Lemma headers_read hs : Forall (fun h => colon_in h /\ unbroken h) hs -> forall n some s,
  (List.length hs < n)%nat -> s <> "" -> has_byte ":" (fst (get_line s)) = false ->
  pem_headers n some (lines hs ++ s) = Some ((some || negb (match hs with [] => true | _ => false end))%bool, s).
Proof.
  induction hs as [|h hs IH]; intros HF n some s Hn HS HC; destruct n as [|n]; try (cbn in Hn; lia); cbn [pem_headers].
  - rewrite lines_nil. change (("" ++ s)%string) with s. rewrite (proj2 (seqb_neq s "") HS). destruct (get_line s) as [line next]. cbn [fst] in HC. rewrite HC, orb_false_r. reflexivity.
  - inversion HF as [|? ? [HD HU] HL]; subst. rewrite lines_cons, !app_assoc_s, lf_app.
    rewrite (proj2 (seqb_neq _ "")) by (destruct h; discriminate). rewrite get_line_lf by exact HU. rewrite trim_colon, drop_colon.
    apply colon_has in HD. rewrite HD. rewrite IH; [|exact HL|cbn in Hn; lia|exact HS|exact HC]. cbn. rewrite !orb_true_r. reflexivity.
Qed.
Lemma headers_sound n : forall some s b r, pem_headers n some s = Some (b, r) ->
  exists hs, s = (lines hs ++ r)%string /\ Forall (fun h => colon_in h /\ unbroken h) hs /\
    b = (some || negb (match hs with [] => true | _ => false end))%bool /\ has_byte ":" (fst (get_line r)) = false /\ r <> "".
Proof.
  induction n as [|n IH]; intros some s b r; cbn [pem_headers]; [discriminate|]. destruct (s =s? "") eqn:ES; [discriminate|].
  destruct (get_line s) as [line next] eqn:EG. destruct (has_byte ":" line) eqn:EC.
  - intros H. destruct (IH _ _ _ _ H) as (hs & -> & HF & -> & HC & HR). apply get_line_inv in EG.
    destruct EG as [(l & HU & -> & ->)|(HU & EN & ->)].
    + exists (l :: hs). rewrite lines_cons, !app_assoc_s. split; [reflexivity|]. split; [constructor; [|exact HF]; split; [|exact HU]|].
      * apply colon_has. rewrite trim_colon, drop_colon in EC. exact EC.
      * rewrite !orb_true_r. auto.
    + exfalso. destruct hs as [|h hs]; [apply HR; exact EN|]. rewrite lines_cons in EN. destruct h; discriminate EN.
  - intros H. injection H as <- <-. exists []. rewrite orb_false_r, EG. repeat (split; [first [reflexivity|constructor|exact EC]|]).
    apply seqb_neq. exact ES.
Qed.

(** ** The end *)
Lemma dash_apart a s : a <> "-"%char -> after_prefix pem_end (String a s) = None.
Proof. intros H. apply after_prefix_none. intros r E. injection E as E _. contradiction. Qed.
Lemma index_end b t : has_byte "-" b = false -> index_of (lf pem_end) (b ++ lf (pem_end ++ t)) = Some (b, t).
Proof.
  induction b as [|a b IH]; intros H.
  - change (("" ++ lf (pem_end ++ t))%string) with (lf (pem_end ++ t)). apply index_here. apply after_prefix_app.
  - cbn [has_byte] in H. apply orb_false_iff in H. destruct H as [HA HB]. change ((String a b ++ lf (pem_end ++ t))%string) with (String a (b ++ lf (pem_end ++ t))%string).
    destruct (Ascii.eqb_spec a "010") as [->|HN]; [|rewrite index_skip by exact HN; rewrite IH by exact HB; reflexivity].
    change (String "010" (b ++ lf (pem_end ++ t))) with (lf (b ++ lf (pem_end ++ t))). rewrite index_later; [rewrite IH by exact HB; reflexivity|].
    destruct b as [|c b]; [reflexivity|]. change ((String c b ++ lf (pem_end ++ t))%string) with (String c (b ++ lf (pem_end ++ t))%string).
    apply dash_apart. intros ->. cbn in HB. discriminate HB.
Qed.
Lemma stop_body hd b t : has_byte "-" b = false -> pem_stop hd (b ++ lf (pem_end ++ t)) = Some (b, t).
Proof.
  intros H. unfold pem_stop. rewrite index_end by exact H. destruct hd; [reflexivity|]. destruct b as [|c b].
  - reflexivity.
  - change ((String c b ++ lf (pem_end ++ t))%string) with (String c (b ++ lf (pem_end ++ t))%string).
    rewrite dash_apart; [reflexivity|]. intros ->. cbn in H. discriminate H.
Qed.
Lemma stop_empty t : pem_stop false (pem_end ++ t) = Some ("", t).
Proof. unfold pem_stop. rewrite after_prefix_app. reflexivity. Qed.
Lemma stop_sound hd s x t : pem_stop hd s = Some (x, t) ->
  (hd = false /\ x = "" /\ s = (pem_end ++ t)%string) \/ s = (x ++ lf (pem_end ++ t))%string.
Proof.
  unfold pem_stop. destruct hd.
  - intros H. right. apply index_sound in H. exact H.
  - destruct (after_prefix pem_end s) as [r|] eqn:E.
    + intros H. injection H as <- <-. left. apply after_prefix_iff in E. auto.
    + intros H. right. apply index_sound in H. exact H.
Qed.

Lemma take_app a b : substring 0 (String.length a) (a ++ b) = a.
Proof. induction a as [|x a IH]; [destruct b; reflexivity|]. cbn. rewrite IH. reflexivity. Qed.
Lemma drop_app a b : substring (String.length a) (String.length b) (a ++ b) = b.
Proof. induction a as [|x a IH]; [apply substring_all|]. cbn. exact IH. Qed.
Lemma length_app a b : String.length (a ++ b) = (String.length a + String.length b)%nat.
Proof. induction a as [|x a IH]; [reflexivity|]. cbn. rewrite IH. reflexivity. Qed.
Lemma take_some n s : (n <= String.length s)%nat -> exists a b, s = (a ++ b)%string /\ String.length a = n.
Proof.
  revert s. induction n as [|n IH]; intros s H; [exists "", s; auto|]. destruct s as [|c s]; [cbn in H; lia|].
  destruct (IH s ltac:(cbn in H; lia)) as (a & b & -> & HL). exists (String c a), b. cbn. auto.
Qed.
Lemma prefix_sound p s : has_prefix p s = true -> exists r, s = (p ++ r)%string.
Proof.
  revert s. induction p as [|a p IH]; intros s H; [exists s; reflexivity|]. destruct s as [|b s]; [discriminate|]. cbn [has_prefix] in H.
  apply andb_true_iff in H. destruct H as [H1 H2]. apply Ascii.eqb_eq in H1. subst b. destruct (IH _ H2) as (r & ->). exists r. reflexivity.
Qed.
Lemma prefix_yes p r : has_prefix p (p ++ r) = true.
Proof. induction p as [|a p IH]; [reflexivity|]. cbn. rewrite Ascii.eqb_refl. exact IH. Qed.
Lemma suffix_sound p s : has_suffix p s = true -> exists r, s = (r ++ p)%string.
Proof.
  induction s as [|a s IH]; cbn [has_suffix].
  - destruct ("" =s? p) eqn:E; [|discriminate]. apply seqb_eq in E. subst p. exists "". reflexivity.
  - destruct (String a s =s? p) eqn:E; [apply seqb_eq in E; subst p; exists ""; reflexivity|]. intros H. destruct (IH H) as (r & ->). exists (String a r). reflexivity.
Qed.
Lemma suffix_yes p r : has_suffix p (r ++ p) = true.
Proof.
  induction r as [|a r IH].
  - change (("" ++ p)%string) with p. destruct p; cbn [has_suffix]; rewrite seqb_refl; reflexivity.
  - change ((String a r ++ p)%string) with (String a (r ++ p)%string). cbn [has_suffix]. rewrite IH. destruct (String a (r ++ p) =s? p); reflexivity.
Qed.

Lemma blank_rest after : fst (get_line after) = "" <-> blank_line after.
Proof.
  split.
  - destruct (get_line after) as [line r] eqn:E. cbn [fst]. intros ->. apply get_line_inv in E. destruct E as [(l & HU & -> & E)|(HU & -> & E)].
    + right. destruct (cut_off l) as (sp & EL & HT). rewrite <- E in EL. exists sp, r. split; [exact HT|]. rewrite EL. reflexivity.
    + left. destruct (trim_split after) as (b & EB & HB). rewrite <- E in EB. rewrite EB. exact HB.
  - intros [HB|(sp & r & HT & ->)].
    + rewrite get_line_end; [apply trim_all; exact HB|]. intros X. destruct (HB _ X) as [Y|Y]; discriminate Y.
    + rewrite lf_app, get_line_lf; [apply tail_blank; exact HT|]. destruct HT as (b & HB & [->| ->]).
      * intros X. destruct (HB _ X) as [Y|Y]; discriminate Y.
      * apply unbroken_app. split; [|apply unbroken_has; reflexivity]. intros X. destruct (HB _ X) as [Y|Y]; discriminate Y.
Qed.
Lemma app_same_length (a b c d : string) : String.length a = String.length c -> (a ++ b = c ++ d)%string -> a = c /\ b = d.
Proof.
  revert c. induction a as [|x a IH]; intros [|y c] HL E; try discriminate HL; [auto|]. simpl in E, HL. injection E as <- E.
  destruct (IH c ltac:(lia) E) as [-> ->]. auto.
Qed.
Lemma closed_iff typ trailer : pem_closed typ trailer = true <-> exists after, trailer = (typ ++ dashes ++ after)%string /\ blank_line after.
Proof.
  unfold pem_closed. cbv zeta. split.
  - destruct (Nat.ltb (String.length trailer) (String.length typ + 5)) eqn:EL; [discriminate|]. apply Nat.ltb_ge in EL.
    destruct (take_some _ _ EL) as (a & b & -> & HL). rewrite <- HL, take_app, length_app.
    replace (String.length a + String.length b - String.length a)%nat with (String.length b) by lia. rewrite drop_app.
    intros H. apply andb_true_iff in H. destruct H as [H H3]. apply andb_true_iff in H. destruct H as [H1 H2].
    apply prefix_sound in H1. destruct H1 as (r & ->). apply suffix_sound in H2. destruct H2 as (q & E).
    assert (HQ : String.length typ = String.length q).
    { pose proof (f_equal String.length E) as X. rewrite (length_app q) in X. change (String.length dashes) with 5%nat in X. lia. }
    destruct (app_same_length _ _ _ _ HQ E) as [_ ->]. exists b. rewrite app_assoc_s. split; [reflexivity|]. apply blank_rest. apply seqb_eq. exact H3.
  - intros (after & -> & HB). replace (typ ++ dashes ++ after)%string with ((typ ++ dashes) ++ after)%string by apply app_assoc_s.
    replace (String.length typ + 5)%nat with (String.length (typ ++ dashes)) by (rewrite length_app; reflexivity).
    rewrite (length_app (typ ++ dashes) after). destruct (Nat.ltb_spec (String.length (typ ++ dashes) + String.length after) (String.length (typ ++ dashes))); [lia|].
    rewrite take_app. replace (String.length (typ ++ dashes) + String.length after - String.length (typ ++ dashes))%nat with (String.length after) by lia.
    rewrite drop_app, prefix_yes, suffix_yes. apply blank_rest in HB. rewrite HB. reflexivity.
Qed.

(** ** base64 *)
Lemma six_code c s : char_sx B64Std c = Some s -> sixbits c (sx_val s).
Proof.
  destruct c as [[] [] [] [] [] [] [] []]; intros H; vm_compute in H; try discriminate H; injection H as <-; reflexivity.
Qed.
Lemma code_six c n : sixbits c n -> exists s, n = sx_val s /\ char_sx B64Std c = Some s.
Proof.
  unfold sixbits. intros H. assert (L : (N.to_nat n < 64)%nat) by (change 64%nat with (List.length pem_alphabet); apply nth_error_Some; congruence).
  assert (X : forall i, (i < 64)%nat -> nth_error pem_alphabet i = Some c -> exists s, N.of_nat i = sx_val s /\ char_sx B64Std c = Some s).
  { clear. intros i Hi H. do 64 (destruct i as [|i]; [injection H as <-; eexists; split; [|vm_compute; reflexivity]; reflexivity|]). lia. }
  destruct (X _ L H) as (s & E & HS). exists s. rewrite <- E, Nnat.N2Nat.id. auto.
Qed.
Lemma pad_code c s : char_sx B64Std c = Some s -> Ascii.eqb c "=" = false.
Proof. intros H. apply Ascii.eqb_neq. intros ->. discriminate H. Qed.
Lemma quanta_base64 s d : base64 s d -> b64_quanta B64Std s = Some d.
Proof.
  intros H. induction H as [|a b p q x rest A B L E|a b c p q r x y rest A B C L E|a b c d p q r t x y z s bytes A B C D E H IH].
  - reflexivity.
  - apply code_six in A, B. destruct A as (p' & -> & A), B as (q' & -> & B). cbn [b64_quanta]. rewrite A, B. cbn.
    destruct (one_byte p' q') as (rest' & L' & E'). rewrite E' in E. rewrite (ascii_eq x (byte_a p' q')) by lia. reflexivity.
  - apply code_six in A, B, C. destruct A as (p' & -> & A), B as (q' & -> & B), C as (r' & -> & C). cbn [b64_quanta]. rewrite A, B, (pad_code _ _ C), C. cbn.
    destruct (two_bytes p' q' r') as (rest' & L' & E'). rewrite E' in E.
    pose proof (N_ascii_bounded x). pose proof (N_ascii_bounded y). pose proof (N_ascii_bounded (byte_a p' q')). pose proof (N_ascii_bounded (byte_b q' r')).
    rewrite (ascii_eq x (byte_a p' q')), (ascii_eq y (byte_b q' r')) by lia. reflexivity.
  - apply code_six in A, B, C, D. destruct A as (p' & -> & A), B as (q' & -> & B), C as (r' & -> & C), D as (t' & -> & D).
    cbn [b64_quanta]. rewrite A, B, (pad_code _ _ C), C, (pad_code _ _ D), D, IH. rewrite three_bytes in E.
    pose proof (N_ascii_bounded x). pose proof (N_ascii_bounded y). pose proof (N_ascii_bounded z).
    pose proof (N_ascii_bounded (byte_a p' q')). pose proof (N_ascii_bounded (byte_b q' r')). pose proof (N_ascii_bounded (byte_c r' t')).
    rewrite (ascii_eq x (byte_a p' q')), (ascii_eq y (byte_b q' r')), (ascii_eq z (byte_c r' t')) by lia. reflexivity.
Qed.
Lemma base64_quanta n : forall s d, (String.length s <= n)%nat -> b64_quanta B64Std s = Some d -> base64 s d.
Proof.
  induction n as [|n IH]; intros s d Hn H.
  - destruct s; [|cbn in Hn; lia]. injection H as <-. constructor.
  - destruct s as [|a [|b [|c [|e s]]]]; try discriminate H; [injection H as <-; constructor|]. cbn [b64_quanta] in H.
    destruct (char_sx B64Std a) as [p|] eqn:A; [|discriminate]. destruct (char_sx B64Std b) as [q|] eqn:B; [|discriminate].
    destruct (Ascii.eqb_spec c "=") as [->|NC].
    + destruct (Ascii.eqb_spec e "=") as [->|]; [|discriminate]. destruct (s =s? "") eqn:ES; [|discriminate]. apply seqb_eq in ES. subst s. injection H as <-.
      destruct (one_byte p q) as (rest & L & E). eapply b64_one; try (apply six_code; eassumption); eassumption.
    + destruct (char_sx B64Std c) as [r|] eqn:C; [|discriminate]. destruct (Ascii.eqb_spec e "=") as [->|].
      * destruct (s =s? "") eqn:ES; [|discriminate]. apply seqb_eq in ES. subst s. injection H as <-.
        destruct (two_bytes p q r) as (rest & L & E). eapply b64_two; try (apply six_code; eassumption); eassumption.
      * destruct (char_sx B64Std e) as [t|] eqn:D; [|discriminate]. destruct (b64_quanta B64Std s) as [bytes|] eqn:ES; [|discriminate]. injection H as <-.
        eapply b64_three; try (apply six_code; eassumption); [apply three_bytes|]. apply IH; [cbn in Hn; lia|exact ES].
Qed.
Lemma squeezed_strip s : strip_nl (without_blanks s) = squeezed s.
Proof.
  unfold squeezed. induction s as [|a s IH]; [reflexivity|]. cbn [without_blanks bs filter existsb]. rewrite orb_false_r.
  destruct (Ascii.eqb a " ") eqn:E1; [exact IH|]. destruct (Ascii.eqb a "009") eqn:E2; [exact IH|].
  cbn [orb strip_nl]. cbv zeta.
  assert (E : (N.eqb (N_of_ascii a) 10 || N.eqb (N_of_ascii a) 13)%bool = (Ascii.eqb a "010" || Ascii.eqb a "013")%bool) by (destruct a as [[] [] [] [] [] [] [] []]; reflexivity).
  rewrite E. rewrite IH. clear E. destruct (Ascii.eqb a "010" || Ascii.eqb a "013")%bool; reflexivity.
Qed.
Lemma body_iff body der : b64_decode B64Std (without_blanks body) = Some der <-> base64 (squeezed body) der.
Proof.
  unfold b64_decode. rewrite squeezed_strip. split; [apply (base64_quanta _ _ _ (le_n _))|apply quanta_base64].
Qed.
Lemma squeezed_lf b : squeezed (b ++ LF) = squeezed b.
Proof. unfold squeezed. rewrite bytes_app, filter_app. cbn. rewrite app_nil_r. reflexivity. Qed.
(* characters of a base64 text *)
Lemma base64_chars s d : base64 s d -> forall a, In a (bs s) -> In a pem_alphabet \/ a = "="%char.
Proof.
  assert (S6 : forall a n, sixbits a n -> In a pem_alphabet) by (intros a n H; eapply nth_error_In; exact H).
  intros H. induction H; cbn [bs]; intros u HI; repeat (destruct HI as [<-|HI]; [eauto|]); try contradiction; auto.
Qed.
Lemma body_chars body der a : base64 (squeezed body) der -> In a (bs body) ->
  In a pem_alphabet \/ In a ["="; " "; "009"; "010"; "013"]%char.
Proof.
  intros H HI. destruct (existsb (Ascii.eqb a) [" "; "009"; "010"; "013"]%char) eqn:E.
  - apply existsb_exists in E. destruct E as (b & HB & E). apply Ascii.eqb_eq in E. subst b. right. right. exact HB.
  - destruct (base64_chars _ _ H a) as [X| ->]; [|left; exact X|right; left; reflexivity].
    unfold squeezed. rewrite list_ascii_of_string_of_list_ascii. apply filter_In. rewrite E. auto.
Qed.
Lemma body_without c body der : base64 (squeezed body) der -> ~ In c pem_alphabet -> ~ In c ["="; " "; "009"; "010"; "013"]%char -> has_byte c body = false.
Proof. intros H H1 H2. apply has_byte_false. intros HI. destruct (body_chars _ _ _ H HI); contradiction. Qed.

(** ** Blocks *)
Lemma first_line_colon x r : has_byte ":" x = false -> has_byte ":" (fst (get_line (x ++ lf r))) = false.
Proof.
  intros H. destruct (get_line (x ++ lf r)) as [line next] eqn:E. cbn [fst]. apply get_line_inv in E. destruct E as [(l & HU & E & ->)|(HU & _ & _)].
  - rewrite trim_colon, drop_colon. symmetry in E. apply app_cut in E. destruct E as [(q & -> & E)|(y & m & -> & _)].
    + destruct q as [|y q]; [rewrite app_nil_r_s; exact H|]. exfalso. unfold lf in E. injection E as <- _. apply HU. rewrite bytes_app. apply in_or_app. simpl. auto.
    + rewrite has_byte_app in H. apply orb_false_iff in H. tauto.
  - exfalso. apply HU. rewrite bytes_app. apply in_or_app. right. simpl. auto.
Qed.
Lemma end_line_colon label after : unbroken label -> blank_line after ->
  has_byte ":" (fst (get_line (pem_end ++ label ++ dashes ++ after))) = has_byte ":" label.
Proof.
  intros HU HB. replace (pem_end ++ label ++ dashes ++ after)%string with (((pem_end ++ label ++ "----") ++ "-") ++ after)%string by (rewrite !app_assoc_s; reflexivity).
  assert (X : has_byte ":" ((pem_end ++ label ++ "----") ++ "-") = has_byte ":" label).
  { rewrite !has_byte_app. cbn. rewrite !orb_false_r. reflexivity. }
  assert (U : unbroken ((pem_end ++ label ++ "----") ++ "-")).
  { apply unbroken_has. apply unbroken_has in HU. rewrite !has_byte_app, HU. reflexivity. }
  assert (D : ~ is_blank "-") by (intros [Y|Y]; discriminate Y).
  destruct HB as [HB|(sp & r & HT & ->)].
  - rewrite get_line_end; [cbn [fst]; rewrite app_assoc_s; change (("-" ++ after)%string) with (String "-" after); rewrite trim_keeps by assumption; exact X|].
    apply unbroken_app. split; [exact U|]. intros Y. destruct (HB _ Y) as [Z|Z]; discriminate Z.
  - replace (((pem_end ++ label ++ "----") ++ "-") ++ sp ++ LF ++ r)%string with ((((pem_end ++ label ++ "----") ++ "-") ++ sp) ++ lf r)%string by (rewrite !app_assoc_s; reflexivity).
    rewrite get_line_lf.
    + cbn [fst]. change "-" with (String "-" "") at 2. rewrite tail_off; [exact X|exact D|discriminate|exact HT].
    + apply unbroken_app. split; [exact U|]. destruct HT as (b & HB & [->| ->]).
      * intros Y. destruct (HB _ Y) as [Z|Z]; discriminate Z.
      * apply unbroken_app. split; [|apply unbroken_has; reflexivity]. intros Y. destruct (HB _ Y) as [Z|Z]; discriminate Z.
Qed.
Lemma lines_length hs s : (List.length hs < S (String.length (lines hs ++ s)))%nat.
Proof. induction hs as [|h hs IH]; [cbn; lia|]. rewrite lines_cons, !app_assoc_s, length_app. cbn [List.length LF append String.length]. cbn [LF append String.length] in *. lia. Qed.

Lemma pem_read_now n label der text : pem_block "" label der text -> pem_decode_from (S n) text = Some (label, der).
Proof.
  intros (sp & hs & body & after & -> & HU & HT & HA & HH & HE & HB). cbn [pem_decode_from].
  change "-----BEGIN " with pem_begin.
  change (("" ++ pem_begin ++ label ++ "-----" ++ sp ++ LF ++ lines hs ++ body ++ "-----END " ++ label ++ "-----" ++ after)%string)
    with ((pem_begin ++ label ++ "-----" ++ sp ++ LF ++ lines hs ++ body ++ "-----END " ++ label ++ "-----" ++ after)%string).
  rewrite start_here.
  replace (label ++ "-----" ++ sp ++ LF ++ lines hs ++ body ++ "-----END " ++ label ++ "-----" ++ after)%string
    with ((((label ++ "----") ++ String "-" "") ++ sp) ++ lf (lines hs ++ body ++ pem_end ++ label ++ dashes ++ after))%string
    by (rewrite !app_assoc_s; reflexivity).
  rewrite get_line_lf.
  2: { apply unbroken_app. split; [apply unbroken_has; apply unbroken_has in HU; rewrite !has_byte_app, HU; reflexivity|].
       destruct HT as (b & HX & [->| ->]).
       - intros Y. destruct (HX _ Y) as [Z|Z]; discriminate Z.
       - apply unbroken_app. split; [|apply unbroken_has; reflexivity]. intros Y. destruct (HX _ Y) as [Z|Z]; discriminate Z. }
  rewrite tail_off; [|intros [Y|Y]; discriminate Y|discriminate|exact HT].
  replace ((label ++ "----") ++ String "-" "")%string with (label ++ dashes)%string by (rewrite app_assoc_s; reflexivity).
  rewrite suffix_yes. cbn [negb]. replace (String.length (label ++ dashes) - 5)%nat with (String.length label) by (rewrite length_app; change (String.length dashes) with 5%nat; lia).
  rewrite take_app.
  assert (HC : has_byte ":" (fst (get_line (body ++ pem_end ++ label ++ dashes ++ after))) = false).
  { destruct HE as [(_ & -> & HC)|(b & ->)].
    - change (("" ++ pem_end ++ label ++ dashes ++ after)%string) with ((pem_end ++ label ++ dashes ++ after)%string).
      rewrite end_line_colon by assumption. destruct (has_byte ":" label) eqn:X; [|reflexivity]. exfalso. apply HC. apply colon_has. exact X.
    - rewrite app_assoc_s, lf_app. apply first_line_colon. rewrite squeezed_lf in HB. apply (body_without _ _ _ HB); vm_compute; intuition discriminate. }
  rewrite headers_read; [|exact HH|apply lines_length|destruct body; discriminate|exact HC].
  assert (HK : pem_closed label (label ++ dashes ++ after) = true) by (apply closed_iff; exists after; auto).
  destruct HE as [(-> & -> & _)|(b & ->)].
  - change (("" ++ pem_end ++ label ++ dashes ++ after)%string) with ((pem_end ++ (label ++ dashes ++ after))%string). cbn [orb negb].
    rewrite stop_empty, HK. rewrite (proj2 (body_iff "" der) HB). reflexivity.
  - rewrite app_assoc_s, lf_app. rewrite squeezed_lf in HB. rewrite stop_body by (apply (body_without _ _ _ HB); vm_compute; intuition discriminate).
    rewrite HK, (proj2 (body_iff b der) HB). reflexivity.
Qed.

Lemma pem_read_from l : Forall (fun x => unbroken x /\ forall y sp, line_tail sp -> x <> ("-----BEGIN " ++ y ++ "-----" ++ sp)%string) l ->
  forall n label der text, (List.length l < n)%nat -> pem_block "" label der text -> pem_decode_from n (lines l ++ text) = Some (label, der).
Proof.
  induction l as [|x l IH]; intros HF n label der text Hn HB; destruct n as [|n]; try (cbn in Hn; lia).
  - apply (pem_read_now n). exact HB.
  - inversion HF as [|? ? [HU HX] HL]; subst. rewrite lines_cons, !app_assoc_s, lf_app. cbn [List.length] in Hn.
    destruct (after_prefix pem_begin x) as [y|] eqn:EX.
    + apply after_prefix_iff in EX. subst x. cbn [pem_decode_from]. rewrite app_assoc_s, start_here.
      rewrite get_line_lf by (apply unbroken_app in HU; tauto). destruct (cut_off y) as (sp & EY & HT).
      destruct (has_suffix dashes (trim_blanks (drop_cr y))) eqn:ES; [|cbn [negb]; apply IH; [exact HL|lia|exact HB]].
      exfalso. apply suffix_sound in ES. destruct ES as (t & ET). rewrite ET in EY. apply (HX t sp HT). rewrite EY, app_assoc_s. reflexivity.
    + cbn [pem_decode_from]. rewrite (start_skips _ _ HU EX). apply (IH HL (S n) label der text); [lia|exact HB].
Qed.
Lemma pem_read before label der text : no_begin before -> pem_block before label der text -> pem_decode text = Some (label, der).
Proof.
  intros (l & -> & HF) (sp & hs & body & after & -> & K). unfold pem_decode. apply pem_read_from; [exact HF|apply lines_length|].
  exists sp, hs, body, after. split; [reflexivity|exact K].
Qed.

Lemma pem_sound_from n : forall text label der, pem_decode_from n text = Some (label, der) ->
  exists before, line_start before /\ pem_block before label der text.
Proof.
  induction n as [|n IH]; intros text label der; cbn [pem_decode_from]; [discriminate|].
  destruct (pem_start text) as [rest|] eqn:ES; [|discriminate]. apply start_sound in ES. destruct ES as (before & -> & HL).
  destruct (get_line rest) as [line next] eqn:EG.
  assert (AGAIN : forall pre r, r = next \/ (exists hs, next = (lines hs ++ r)%string) -> pem_decode_from n r = Some (label, der) -> rest = (pre ++ lf next)%string \/ next = "" ->
    exists before', line_start before' /\ pem_block before' label der (before ++ pem_begin ++ rest)).
  { intros pre r HR HD HP. assert (X : exists q, line_start q /\ (before ++ pem_begin ++ rest)%string = (q ++ r)%string \/ r = "").
    { destruct HP as [HP|HP].
      - destruct HR as [->|(hs & HR)].
        + exists (before ++ pem_begin ++ pre ++ LF)%string. left. split; [right; exists (before ++ pem_begin ++ pre)%string; rewrite !app_assoc_s; reflexivity|].
          rewrite HP, !app_assoc_s. reflexivity.
        + exists (before ++ pem_begin ++ pre ++ LF ++ lines hs)%string. left. split; [|rewrite HP, HR, !app_assoc_s; reflexivity].
          right. destruct hs as [|h hs] using rev_ind; [exists (before ++ pem_begin ++ pre)%string; rewrite lines_nil, app_nil_r_s, !app_assoc_s; reflexivity|].
          rewrite lines_app, lines_cons, lines_nil, app_nil_r_s. exists (before ++ pem_begin ++ pre ++ LF ++ lines hs ++ h)%string. rewrite !app_assoc_s. reflexivity.
      - exists "". right. destruct HR as [->|(hs & HR)]; [exact HP|]. rewrite HP in HR. destruct hs as [|h hs]; [symmetry; exact HR|]. rewrite lines_cons in HR. destruct h; discriminate HR. }
    destruct X as (q & [(HQ & EQ)| ->]).
    - destruct (IH _ _ _ HD) as (b' & HB' & (sp & hs & body & after & -> & K)). exists (q ++ b')%string. split.
      + destruct HB' as [->|(b0 & ->)]; [rewrite app_nil_r_s; exact HQ|right; exists (q ++ b0)%string; rewrite app_assoc_s; reflexivity].
      + exists sp, hs, body, after. split; [rewrite EQ, !app_assoc_s; reflexivity|exact K].
    - destruct n; discriminate HD. }
  apply get_line_inv in EG.
  destruct (has_suffix dashes line) eqn:ED; cbn [negb].
  2: { destruct EG as [(l & HU & -> & EL)|(HU & -> & _)]; intros H; [apply (AGAIN l next); auto|apply (AGAIN "" ""); auto]. }
  apply suffix_sound in ED. destruct ED as (typ & ->).
  replace (String.length (typ ++ dashes) - 5)%nat with (String.length typ) by (rewrite length_app; change (String.length dashes) with 5%nat; lia). rewrite take_app.
  destruct (pem_headers (S (String.length next)) false next) as [[hd rest']|] eqn:EH; [|discriminate].
  apply headers_sound in EH. destruct EH as (hs & EN & HH & EB & HC & HR).
  destruct EG as [(l & HU & -> & EL)|(_ & -> & _)]; [|exfalso; destruct hs as [|h hs]; [apply HR; symmetry; exact EN|rewrite lines_cons in EN; destruct h; discriminate EN]].
  assert (RETRY : pem_decode_from n rest' = Some (label, der) -> exists before', line_start before' /\ pem_block before' label der (before ++ pem_begin ++ l ++ lf next)).
  { intros H. apply (AGAIN l rest'); eauto. }
  destruct (pem_stop hd rest') as [[body trailer]|] eqn:EP; [|exact RETRY].
  destruct (pem_closed typ trailer) eqn:EK; [|exact RETRY].
  destruct (b64_decode B64Std (without_blanks body)) as [d|] eqn:ED; [|exact RETRY].
  intros H. injection H as -> ->. clear RETRY AGAIN IH. exists before. split; [exact HL|].
  apply closed_iff in EK. destruct EK as (after & -> & HA). apply body_iff in ED.
  destruct (cut_off l) as (sp & ESP & HT). rewrite <- EL in ESP.
  assert (HUL : unbroken label). { rewrite ESP in HU. apply unbroken_app in HU. destruct HU as [HU _]. apply unbroken_app in HU. tauto. }
  apply stop_sound in EP. destruct EP as [(-> & -> & ER)|ER].
  - exists sp, hs, "", after. split; [rewrite EN, ER, ESP, !app_assoc_s; reflexivity|]. repeat (split; [assumption|]). split; [|exact ED].
    left. destruct hs; [|discriminate EB]. repeat (split; [reflexivity|]). intros X. apply colon_has in X. rewrite ER, end_line_colon in HC by assumption. congruence.
  - exists sp, hs, (body ++ LF)%string, after. split; [rewrite EN, ER, ESP, !app_assoc_s; reflexivity|]. repeat (split; [assumption|]). split; [right; eauto|].
    rewrite squeezed_lf. exact ED.
Qed.
Lemma pem_sound text label der : pem_decode text = Some (label, der) -> exists before, line_start before /\ pem_block before label der text.
Proof. apply pem_sound_from. Qed.
