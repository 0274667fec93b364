(** Facts about reading dates from text. *)
From Coq Require Import ZArith List Bool QArith_base Ascii String Lia.
From Verif Require Import CalModel CalSpec TimeSearchModel IndexModel AxisModel StencilModel CfModel CfSpec CfText DateTextModel DateTextSpec.
Import ListNotations.
Local Open Scope string_scope.
Open Scope Z_scope.

(** ** matching *)
Lemma seq_head {A B} (p : rx A) (q : A -> rx B) s x r l y m : p s = (x, r) :: l -> q x r = y :: m -> exists n, seq_rx p q s = y :: n.
Proof. intros Hp Hq. unfold seq_rx. rewrite Hp. cbn. rewrite Hq. cbn. eauto. Qed.
Lemma in_then {A B} (p : rx A) (q : A -> rx B) s z : In z (seq_rx p q s) <-> exists x r, In (x, r) (p s) /\ In z (q x r).
Proof.
  unfold seq_rx. rewrite in_flat_map. split.
  - intros [[x r] [H1 H2]]. eauto.
  - intros (x & r & H1 & H2). exists (x, r). auto.
Qed.
Lemma in_one p s a r : In (a, r) (one p s) <-> s = String a r /\ p a = true.
Proof.
  destruct s as [|b t]; cbn; [split; [tauto | intros [H _]; discriminate] |].
  destruct (p b) eqn:E; cbn; split; try tauto.
  - intros [H|[]]. injection H as <- <-. auto.
  - intros [H _]. injection H as -> ->. auto.
  - intros [H H']. injection H as -> ->. congruence.
Qed.
Lemma in_lit c s a r : In (a, r) (lit (String c "") s) <-> s = String a r /\ a = c.
Proof.
  unfold lit. rewrite in_one, String.eqb_eq. split; intros [H1 H2]; (split; [exact H1|]); congruence.
Qed.
Lemma one_yes p a r : p a = true -> one p (String a r) = [(a, r)].
Proof. intros H. cbn. now rewrite H. Qed.
Lemma one_no p s : stops p s -> one p s = [].
Proof. destruct s; cbn; [reflexivity|]. intros H. now rewrite H. Qed.
Lemma lit_yes c r : lit (String c "") (String c r) = [(c, r)].
Proof. unfold lit. apply one_yes. apply String.eqb_refl. Qed.
Lemma lit_no c a r : a <> c -> lit (String c "") (String a r) = [].
Proof. intros H. unfold lit. apply one_no. cbn [stops]. apply String.eqb_neq. congruence. Qed.
Lemma lit_empty c : lit (String c "") EmptyString = [].
Proof. reflexivity. Qed.
Lemma in_digits2 s x r : In (x, r) (digits2 s) <-> s = (x ++ r)%string /\ every is_digit x = true /\ String.length x = 2%nat.
Proof.
  unfold digits2. rewrite in_then. split.
  - intros (a & r1 & H1 & H2). apply in_one in H1 as [-> H1]. apply in_then in H2 as (b & r2 & H2 & H3).
    apply in_one in H2 as [-> H2]. destruct H3 as [H3|[]]. injection H3 as <- <-. cbn. rewrite H1, H2. auto.
  - intros (-> & H & L). destruct x as [|a [|b [|]]]; try discriminate L. cbn in H. apply andb_prop in H as [Ha H]. apply andb_prop in H as [Hb _].
    exists a, (String b r). split; [now apply in_one|]. apply in_then. exists b, r. split; [now apply in_one | left; reflexivity].
Qed.
Lemma in_digits12 s x r : In (x, r) (digits12 s) <-> s = (x ++ r)%string /\ every is_digit x = true /\ (String.length x = 1 \/ String.length x = 2)%nat.
Proof.
  unfold digits12, alt. rewrite in_app_iff, in_digits2, in_then. split.
  - intros [(H1 & H2 & H3)|(a & t & H1 & H2)]; [auto|]. apply in_one in H1 as [-> H1]. destruct H2 as [H2|[]]. injection H2 as <- <-. cbn. rewrite H1. auto.
  - intros (-> & H & [L|L]); [right | left; auto]. destruct x as [|a [|]]; try discriminate L. cbn in H. apply andb_prop in H as [Ha _].
    exists a, r. split; [now apply in_one | left; reflexivity].
Qed.
Lemma in_plus p s x r : In (x, r) (plus p s) -> s = (x ++ r)%string /\ every p x = true /\ x <> ""%string.
Proof.
  revert x r. induction s as [|a s IH]; intros x r; cbn; [tauto|]. destruct (p a) eqn:E; [|cbn; tauto].
  rewrite in_app_iff, in_map_iff. intros [[[y t] [H1 H2]]|[H|[]]].
  - injection H1 as <- <-. apply IH in H2 as (-> & H2 & _). cbn. rewrite E. repeat split; auto. discriminate.
  - injection H as <- <-. cbn. rewrite E. repeat split; auto. discriminate.
Qed.
Lemma plus_head p s t : every p s = true -> s <> ""%string -> stops p t -> exists l, plus p (s ++ t) = (s, t) :: l.
Proof.
  intros H N St. induction s as [|a s IH]; [congruence|]. cbn in H. apply andb_prop in H as [Ha H]. cbn. rewrite Ha.
  destruct s as [|b s].
  - cbn [append]. destruct t as [|c t]; [cbn; eauto|]. cbn in St. cbn. rewrite St. cbn. eauto.
  - destruct (IH H) as [l E]; [discriminate|]. rewrite E. cbn. eauto.
Qed.
Lemma digits2_yes x t : every is_digit x = true -> String.length x = 2%nat -> digits2 (x ++ t) = [(x, t)].
Proof.
  intros H L. destruct x as [|a [|b [|]]]; try discriminate L. cbn in H. apply andb_prop in H as [Ha H]. apply andb_prop in H as [Hb _].
  unfold digits2, seq_rx, one, ret. cbn. rewrite Ha. cbn. rewrite Hb. reflexivity.
Qed.
Lemma digits2_no s : stops is_digit s -> digits2 s = [].
Proof. intros H. unfold digits2, seq_rx. now rewrite one_no. Qed.
Lemma digits12_no s : stops is_digit s -> digits12 s = [].
Proof. intros H. unfold digits12, alt. rewrite digits2_no by exact H. unfold seq_rx. now rewrite one_no. Qed.
(** one or two digits, all of them before something that no digit is *)
Lemma digits12_then {B} (c : ascii) (k : string -> ascii -> rx B) x t : every is_digit x = true -> (String.length x = 1 \/ String.length x = 2)%nat ->
  is_digit c = false -> stops is_digit t ->
  seq_rx digits12 (fun d => seq_rx (lit (String c "")) (k d)) (x ++ t) = seq_rx (lit (String c "")) (k x) t.
Proof.
  intros H L Hc St. destruct L as [L|L].
  - destruct x as [|a [|]]; try discriminate L. cbn in H. apply andb_prop in H as [Ha _].
    assert (E : digits12 (String a t) = [(String a "", t)]).
    { unfold digits12, alt, digits2, seq_rx, one, ret. cbn. rewrite Ha. cbn. destruct t as [|b t]; [reflexivity|]. cbn in St. rewrite St. reflexivity. }
    unfold seq_rx at 1. cbn [append]. rewrite E. cbn [flat_map]. now rewrite app_nil_r.
  - destruct x as [|a [|b [|]]]; try discriminate L. cbn in H. apply andb_prop in H as [Ha H]. apply andb_prop in H as [Hb _].
    assert (E : digits12 (String a (String b t)) = [(String a (String b ""), t); (String a "", String b t)]).
    { unfold digits12, alt, digits2, seq_rx, one, ret. cbn. rewrite Ha. cbn. rewrite Hb. reflexivity. }
    unfold seq_rx at 1. cbn [append]. rewrite E. cbn [flat_map].
    assert (Z : seq_rx (lit (String c "")) (k (String a "")) (String b t) = []).
    { unfold seq_rx. rewrite lit_no; [reflexivity|]. intros ->. congruence. }
    rewrite Z. now rewrite !app_nil_r.
Qed.
Lemma no_clock x t : every is_digit x = true -> (String.length x = 1 \/ String.length x = 2)%nat -> stops is_digit t -> (forall r, t <> String ":" r) ->
  rx_clock (x ++ t) = [].
Proof.
  intros H L St N. unfold rx_clock. rewrite digits12_then; auto. unfold seq_rx. destruct t as [|a r]; [reflexivity|].
  rewrite lit_no; [reflexivity|]. intros ->. now apply (N r).
Qed.

(** ** numerals *)
Lemma digit_code a : is_digit a = true -> exists d, String.get d "0123456789" = Some a /\ Z.of_nat d = code a - 48.
Proof.
  unfold is_digit, between. intros H. apply andb_prop in H as [H1 H2]. apply Z.leb_le in H1, H2.
  assert (B : 0 <= code a - 48 < 10) by lia. pose proof (digit_get _ B) as G. exists (Z.to_nat (code a - 48)). split; [|lia].
  change "0123456789" with dstr. rewrite G. f_equal. unfold digit, code. replace (48 + (Z.of_N (N_of_ascii a) - 48)) with (Z.of_N (N_of_ascii a)) by lia. rewrite N2Z.id. apply ascii_N_embedding.
Qed.
Lemma int_numeral s : every is_digit s = true -> s <> ""%string -> numeral s (int_of s).
Proof.
  intros H N. unfold int_of.
  assert (G : forall s t, every is_digit s = true -> numeral t (int_of t) -> numeral (t ++ s) (int_of (t ++ s))).
  { clear. induction s as [|a s IH]; intros t H N; [now rewrite app_nil'|]. cbn in H. apply andb_prop in H as [Ha H].
    replace (t ++ String a s)%string with ((t ++ String a "") ++ s)%string by now rewrite app_assoc'.
    apply IH; [exact H|]. unfold int_of. rewrite int_from_app. destruct (digit_code a Ha) as (d & G & E). rewrite <- E. now apply numeral_more. }
  destruct s as [|a s]; [congruence|]. cbn in H. apply andb_prop in H as [Ha H].
  apply (G s (String a "")); [exact H|]. destruct (digit_code a Ha) as (d & Gd & E).
  unfold int_of. cbn. replace (code a - 48) with (Z.of_nat d) by lia. now apply numeral_one.
Qed.
Lemma short_numeral s n : numeral s n -> (String.length s <= 2)%nat -> (String.length s = 1 \/ String.length s = 2)%nat.
Proof. intros H L. apply numeral_spec in H as (_ & N & _). destruct s as [|a [|b [|]]]; cbn in *; auto; [congruence | lia]. Qed.

(** ** names *)
Lemma lower_capital a b : capital a b -> lower_char a = b /\ lower_char b = b /\ is_alpha a = true /\ is_alpha b = true.
Proof.
  intros [[H1 H2] E]. unfold lower_char, is_alpha, between.
  assert (Ca : code a = Z.of_nat (nat_of_ascii a)) by (unfold code, nat_of_ascii; now rewrite N_nat_Z).
  assert (Cb : code b = Z.of_nat (nat_of_ascii b)) by (unfold code, nat_of_ascii; now rewrite N_nat_Z).
  rewrite Ca, Cb, E. repeat match goal with |- context [(?x <=? ?y)%Z] => let Q := fresh in destruct (Z.leb_spec x y) as [Q|Q]; try lia end. cbn.
  repeat split; auto. replace (Z.of_nat (nat_of_ascii a) + 32) with (Z.of_N (N_of_ascii b)); [rewrite N2Z.id; apply ascii_N_embedding|].
  fold (code b). rewrite Cb, E. lia.
Qed.
Lemma same_char a b : same_letter a b -> lower_char a = lower_char b /\ is_alpha a = is_alpha b.
Proof.
  intros [->|[K|K]]; [auto| |]; destruct (lower_capital _ _ K) as (E1 & E2 & E3 & E4); split; congruence.
Qed.
Lemma same_lower s t : same_letters s t -> lower s = lower t.
Proof.
  revert t. induction s as [|a s IH]; intros [|b t] H; cbn in *; inversion H; subst; [reflexivity|].
  rewrite (IH t) by assumption. f_equal. now apply same_char.
Qed.
Lemma same_alpha s t : same_letters s t -> every is_alpha t = true -> every is_alpha s = true.
Proof.
  revert t. induction s as [|a s IH]; intros [|b t] H; cbn in *; inversion H; subst; [reflexivity|].
  intros E. apply andb_prop in E as [E1 E2]. rewrite (IH t) by assumption. rewrite andb_true_r. rewrite <- E1. now apply same_char.
Qed.
Lemma lower_same_char a b : lower_char a = lower_char b -> same_letter a b.
Proof.
  assert (Ca : code a = Z.of_nat (nat_of_ascii a)) by (unfold code, nat_of_ascii; now rewrite N_nat_Z).
  assert (Cb : code b = Z.of_nat (nat_of_ascii b)) by (unfold code, nat_of_ascii; now rewrite N_nat_Z).
  assert (K : forall x, between 65 90 x = true -> nat_of_ascii (ascii_of_N (Z.to_N (code x + 32))) = (nat_of_ascii x + 32)%nat /\ (65 <= nat_of_ascii x <= 90)%nat).
  { intros x Hx. unfold between in Hx. apply andb_prop in Hx as [H1 H2]. apply Z.leb_le in H1, H2.
    assert (Cx : code x = Z.of_nat (nat_of_ascii x)) by (unfold code, nat_of_ascii; now rewrite N_nat_Z).
    split; [|lia]. unfold nat_of_ascii at 1. rewrite N_ascii_embedding; lia. }
  unfold lower_char. intros E. destruct (between 65 90 a) eqn:Ea, (between 65 90 b) eqn:Eb.
  - left. destruct (K a Ea) as [A1 _], (K b Eb) as [B1 _]. rewrite E in A1. assert (nat_of_ascii a = nat_of_ascii b) by lia.
    rewrite <- (ascii_nat_embedding a), <- (ascii_nat_embedding b). congruence.
  - right; left. destruct (K a Ea) as [A1 A2]. split; [exact A2|]. rewrite E in A1. exact A1.
  - right; right. destruct (K b Eb) as [A1 A2]. split; [exact A2|]. rewrite <- E in A1. exact A1.
  - left. exact E.
Qed.
Lemma lower_same s t : lower s = lower t -> same_letters s t.
Proof.
  revert t. induction s as [|a s IH]; intros [|b t] H; try discriminate H; [constructor|]. cbn in H. injection H as H1 H2.
  constructor; [now apply lower_same_char | now apply IH].
Qed.
Lemma month_cases m t : month_name m t -> 1 <= m <= 12 /\ nth_error months (Z.to_nat m) = Some t.
Proof.
  intros [H1 H2]. assert (L : (Z.to_nat (m - 1) < 12)%nat).
  { assert (N : nth_error ["Jan"; "Feb"; "Mar"; "Apr"; "May"; "Jun"; "Jul"; "Aug"; "Sep"; "Oct"; "Nov"; "Dec"]%string (Z.to_nat (m - 1)) <> None) by congruence.
    apply nth_error_Some in N. exact N. }
  split; [lia|]. replace (Z.to_nat m) with (S (Z.to_nat (m - 1))) by lia. exact H2.
Qed.
Lemma month_place m t : month_name m t -> place_of (lower t) (map lower months) = Some m /\ every is_alpha t = true /\ t <> ""%string.
Proof.
  intros H. destruct (month_cases m t H) as [B N]. 
  assert (C : In (Z.to_nat m) (seq 1 12)) by (apply in_seq; lia). rewrite <- (Z2Nat.id m) by lia. clear H B. revert N C. generalize (Z.to_nat m). intros k N C.
  cbn in C. repeat (destruct C as [<-|C]; [cbn in N; injection N as <-; repeat split; discriminate|]). destruct C.
Qed.
Lemma place_nth s l k : place_of s l = Some k -> 0 <= k /\ nth_error l (Z.to_nat k) = Some s.
Proof.
  revert k. induction l as [|x l IH]; intros k; cbn [place_of]; [discriminate|]. destruct (String.eqb_spec s x) as [->|N].
  - intros E. injection E as <-. split; [lia | reflexivity].
  - destruct (place_of s l) as [j|]; [|discriminate]. cbn [option_map]. intros E. assert (K : k = 1 + j) by congruence. subst k. destruct (IH j eq_refl) as [H1 H2]. split; [lia|].
    replace (Z.to_nat (1 + j)) with (S (Z.to_nat j)) by lia. exact H2.
Qed.
Lemma place_month s k : place_of (lower s) (map lower months) = Some k -> names_month s k \/ k = 0 /\ same_letters s "Smarch".
Proof.
  intros H. apply place_nth in H as [H1 H2]. rewrite nth_error_map in H2. destruct (nth_error months (Z.to_nat k)) as [t|] eqn:E; [|discriminate].
  cbn in H2. injection H2 as H2. assert (k = 0 \/ 1 <= k) as [->|K] by lia.
  - right. split; [reflexivity|]. cbn in E. injection E as <-. apply lower_same. now symmetry.
  - left. exists t. split; [split; [exact K|]|]; [|apply lower_same; now symmetry].
    replace (Z.to_nat k) with (S (Z.to_nat (k - 1))) in E by lia. exact E.
Qed.

(** ** the date *)
Lemma day_head c ds ms ys d m y rest : c <> Yearless -> day_text ds ms ys d m y -> no_digit_first rest ->
  exists r, rx_day c (ds ++ " " ++ ms ++ " " ++ ys ++ rest)%string = ((ds, Some (ms, ys)), rest) :: r.
Proof.
  intros Hc (Hd & Ld & (t & Ht & Hms) & Hy) Hr.
  assert (St : stops is_digit rest).
  { destruct rest as [|a rest]; cbn; [exact I|]. destruct (is_digit a) eqn:Ea; [|reflexivity]. exfalso.
    apply (Hr (String a "") (int_of (String a "")) rest); [|reflexivity]. apply int_numeral; [cbn; now rewrite Ea | discriminate]. }
  destruct (numeral_spec _ _ Hd) as (Dd & Nd & _). destruct (numeral_spec _ _ Hy) as (Dy & Ny & _).
  destruct (month_place _ _ Ht) as (_ & At & Nt).
  assert (Am : every is_alpha ms = true) by (apply (same_alpha _ _ Hms At)).
  assert (Nm : ms <> ""%string) by (intros ->; destruct t; [congruence | inversion Hms]).
  assert (Y : exists l, seq_rx (plus is_digit) (fun y0 => ret (ds, Some (ms, y0))) (ys ++ rest)%string = ((ds, Some (ms, ys)), rest) :: l).
  { destruct (plus_head is_digit ys rest Dy Ny St) as [l E]. eapply seq_head; [exact E | reflexivity]. }
  destruct Y as [ly Y].
  assert (X : exists l, seq_rx (lit " ") (fun _ => seq_rx (plus is_alpha) (fun m0 => seq_rx (lit " ") (fun _ => seq_rx (plus is_digit) (fun y0 => ret (ds, Some (m0, y0))))))
     (" " ++ ms ++ " " ++ ys ++ rest)%string = ((ds, Some (ms, ys)), rest) :: l).
  { destruct (plus_head is_alpha ms (" " ++ ys ++ rest)%string Am Nm eq_refl) as [lm Em].
    assert (Z : exists l, seq_rx (lit " ") (fun _ => seq_rx (plus is_digit) (fun y0 => ret (ds, Some (ms, y0)))) (" " ++ ys ++ rest)%string = ((ds, Some (ms, ys)), rest) :: l)
      by (eapply seq_head; [exact (lit_yes " " (ys ++ rest)%string) | exact Y]).
    destruct Z as [lz Z].
    assert (W : exists l, seq_rx (plus is_alpha) (fun m0 => seq_rx (lit " ") (fun _ => seq_rx (plus is_digit) (fun y0 => ret (ds, Some (m0, y0))))) (ms ++ " " ++ ys ++ rest)%string
       = ((ds, Some (ms, ys)), rest) :: l) by (eapply seq_head; [exact Em | exact Z]).
    destruct W as [lw W]. eapply seq_head; [exact (lit_yes " " (ms ++ " " ++ ys ++ rest)%string) | exact W]. }
  destruct X as [lx X]. exists lx. rewrite <- X.
  destruct c; try congruence; unfold rx_day; (rewrite digits12_then; [reflexivity | exact Dd | apply (short_numeral _ _ Hd Ld) | reflexivity | reflexivity]).
Qed.
Lemma blank_space a : blank a <-> is_space a = true.
Proof.
  assert (Ca : code a = Z.of_nat (nat_of_ascii a)) by (unfold code, nat_of_ascii; now rewrite N_nat_Z).
  unfold blank, is_space, between. rewrite Ca, orb_true_iff, !andb_true_iff, !Z.leb_le. lia.
Qed.
Lemma space_digit a : is_space a = true -> is_digit a = false.
Proof. intros H. destruct (is_digit a) eqn:E; [|reflexivity]. apply digit_not_space in E. congruence. Qed.
Lemma digit_stops ds d t : numeral ds d -> stops is_space (ds ++ t).
Proof. intros H. destruct (numeral_head ds d t H) as (a & r & -> & E). cbn. now apply digit_not_space. Qed.
(** hours, minutes, blank *)
Lemma clock_blank hs mis h mi b t : clock_text hs mis h mi -> blank b -> rx_clock (hs ++ ":" ++ mis ++ String b t) = [((Some hs, Some mis, None), t)].
Proof.
  intros (Hh & Lh & Hm & Lm) Hb. apply blank_space in Hb. destruct (numeral_spec _ _ Hh) as (Dh & _). destruct (numeral_spec _ _ Hm) as (Dm & _).
  unfold rx_clock. rewrite digits12_then; [|exact Dh | apply (short_numeral _ _ Hh Lh) | reflexivity | reflexivity].
  unfold seq_rx at 1. cbn [append]. rewrite lit_yes. cbn [flat_map]. rewrite app_nil_r. unfold seq_rx at 1. rewrite digits2_yes by assumption. cbn [flat_map]. rewrite app_nil_r.
  unfold alt, seq_rx at 1. rewrite one_yes by exact Hb. cbn [flat_map ret app]. unfold seq_rx. rewrite lit_no; [reflexivity|]. intros ->. vm_compute in Hb. discriminate.
Qed.
(** hours, minutes, seconds *)
Lemma clock_full hs mis ss h mi s t : clock_text hs mis h mi -> numeral ss s -> String.length ss = 2%nat ->
  rx_clock (hs ++ ":" ++ mis ++ ":" ++ ss ++ t) = [((Some hs, Some mis, Some ss), t)].
Proof.
  intros (Hh & Lh & Hm & Lm) Hs Ls. destruct (numeral_spec _ _ Hh) as (Dh & _). destruct (numeral_spec _ _ Hm) as (Dm & _). destruct (numeral_spec _ _ Hs) as (Ds & _).
  unfold rx_clock. rewrite digits12_then; [|exact Dh | apply (short_numeral _ _ Hh Lh) | reflexivity | reflexivity].
  unfold seq_rx at 1. cbn [append]. rewrite lit_yes. cbn [flat_map]. rewrite app_nil_r. unfold seq_rx at 1. rewrite digits2_yes by assumption. cbn [flat_map]. rewrite app_nil_r.
  unfold alt, seq_rx at 1. rewrite one_no by reflexivity. cbn [flat_map app]. unfold seq_rx at 1. rewrite lit_yes. cbn [flat_map]. rewrite app_nil_r.
  unfold seq_rx. rewrite digits2_yes by assumption. reflexivity.
Qed.

(** ** the whole text *)
Lemma search_day c ds ms ys d m y rest : c <> Yearless -> day_text ds ms ys d m y -> no_digit_first rest ->
  search c true (ds ++ " " ++ ms ++ " " ++ ys ++ rest) = Some ((None, None, None), (ds, Some (ms, ys))).
Proof.
  intros Hc Hday Hr. destruct (day_head c ds ms ys d m y rest Hc Hday Hr) as [l E]. destruct Hday as (Hd & Ld & _).
  destruct (numeral_spec _ _ Hd) as (Dd & _).
  assert (P : exists l', rx_pattern c true (ds ++ " " ++ ms ++ " " ++ ys ++ rest) = (((None, None, None), (ds, Some (ms, ys))), rest) :: l').
  { destruct (seq_head (rx_day c) (fun d0 => @ret (clock_groups * date_groups) ((None, None, None), d0)) _ _ _ _ _ _ E eq_refl) as [l'' E'].
    unfold rx_pattern. eapply seq_head; [|exact E'].
    unfold alt. rewrite (no_clock ds) ; [reflexivity | exact Dd | apply (short_numeral _ _ Hd Ld) | reflexivity | discriminate]. }
  destruct P as [l' P]. destruct (numeral_head ds d (" " ++ ms ++ " " ++ ys ++ rest) Hd) as (a & r & Es & _).
  rewrite Es in P |- *. cbn [search]. rewrite P. reflexivity.
Qed.
Lemma search_clock c start hs mis h mi b ds ms ys d m y rest : c <> Yearless -> clock_text hs mis h mi -> blank b -> day_text ds ms ys d m y -> no_digit_first rest ->
  search c start (hs ++ ":" ++ mis ++ String b (ds ++ " " ++ ms ++ " " ++ ys ++ rest)) = Some ((Some hs, Some mis, None), (ds, Some (ms, ys))).
Proof.
  intros Hc Hcl Hb Hday Hr. destruct (day_head c ds ms ys d m y rest Hc Hday Hr) as [l E].
  pose proof (clock_blank hs mis h mi b (ds ++ " " ++ ms ++ " " ++ ys ++ rest) Hcl Hb) as K.
  assert (P : exists l', rx_pattern c start (hs ++ ":" ++ mis ++ String b (ds ++ " " ++ ms ++ " " ++ ys ++ rest)) = (((Some hs, Some mis, None), (ds, Some (ms, ys))), rest) :: l').
  { destruct (seq_head (rx_day c) (fun d0 => @ret (clock_groups * date_groups) ((Some hs, Some mis, None), d0)) _ _ _ _ _ _ E eq_refl) as [l'' E'].
    unfold rx_pattern. eapply seq_head; [|exact E']. unfold alt. rewrite K. reflexivity. }
  destruct P as [l' P]. destruct Hcl as (Hh & _).
  destruct (numeral_head hs h (":" ++ mis ++ String b (ds ++ " " ++ ms ++ " " ++ ys ++ rest)) Hh) as (a & r & Es & _).
  rewrite Es in P |- *. cbn [search]. rewrite P. reflexivity.
Qed.
(** the pattern does not match at hours, minutes and seconds that a blank follows *)
Lemma no_pattern c start hs mis ss h mi s t : c <> Yearless -> clock_text hs mis h mi -> numeral ss s -> String.length ss = 2%nat -> stops is_digit t ->
  rx_pattern c start (hs ++ ":" ++ mis ++ ":" ++ ss ++ t) = [].
Proof.
  intros Hc Hcl Hs Ls St. pose proof (clock_full hs mis ss h mi s t Hcl Hs Ls) as K. destruct Hcl as (Hh & Lh & _). destruct (numeral_spec _ _ Hh) as (Dh & _).
  assert (N : rx_day c t = []) by (destruct c; try congruence; unfold rx_day, seq_rx; now rewrite digits12_no).
  assert (M : rx_day c (hs ++ ":" ++ mis ++ ":" ++ ss ++ t) = []).
  { destruct c; try congruence; unfold rx_day; (rewrite digits12_then; [reflexivity | exact Dh | apply (short_numeral _ _ Hh Lh) | reflexivity | reflexivity]). }
  unfold rx_pattern, seq_rx at 1, alt. rewrite K. destruct start; cbn [app flat_map]; unfold seq_rx; rewrite N; try rewrite M; reflexivity.
Qed.
Lemma search_skip c start a s : rx_pattern c start (String a s) = [] -> search c start (String a s) = search c false s.
Proof. intros H. cbn [search]. now rewrite H. Qed.
Lemma search_seconds c hs mis ss h mi s b ds ms ys d m y rest : c <> Yearless -> clock_text hs mis h mi -> numeral ss s -> String.length ss = 2%nat -> blank b ->
  day_text ds ms ys d m y -> no_digit_first rest ->
  search c true (hs ++ ":" ++ mis ++ ":" ++ ss ++ String b (ds ++ " " ++ ms ++ " " ++ ys ++ rest)) = Some ((Some mis, Some ss, None), (ds, Some (ms, ys))).
Proof.
  intros Hc Hcl Hs Ls Hb Hday Hr. pose proof Hcl as (Hh & Lh & Hm & Lm). set (t := String b (ds ++ " " ++ ms ++ " " ++ ys ++ rest)).
  assert (St : stops is_digit t) by (cbn; apply space_digit; now apply blank_space).
  assert (Fin : search c false (mis ++ ":" ++ ss ++ t) = Some ((Some mis, Some ss, None), (ds, Some (ms, ys)))).
  { apply (search_clock c false mis ss mi s b ds ms ys d m y rest Hc); try assumption. unfold clock_text. repeat split; try assumption. lia. }
  assert (Colon : search c false (":" ++ mis ++ ":" ++ ss ++ t) = Some ((Some mis, Some ss, None), (ds, Some (ms, ys)))).
  { change (":" ++ mis ++ ":" ++ ss ++ t) with (String ":" (mis ++ ":" ++ ss ++ t)). rewrite search_skip; [exact Fin|].
    unfold rx_pattern, alt, rx_clock, seq_rx. now rewrite digits12_no. }
  assert (One : forall start x a, numeral (String a "") x -> search c start (String a (":" ++ mis ++ ":" ++ ss ++ t)) = Some ((Some mis, Some ss, None), (ds, Some (ms, ys)))).
  { intros start x a Ha. rewrite search_skip; [exact Colon|].
    apply (no_pattern c start (String a "") mis ss x mi s t Hc); try assumption. repeat split; try assumption. cbn. lia. }
  destruct (numeral_spec _ _ Hh) as (Dh & Nh & _).
  destruct hs as [|a1 [|a2 [|]]]; [congruence | | | cbn in Lh; lia].
  - exact (One true h a1 Hh).
  - change (String a1 (String a2 "") ++ ":" ++ mis ++ ":" ++ ss ++ t) with (String a1 (String a2 (":" ++ mis ++ ":" ++ ss ++ t))).
    rewrite search_skip.
    + apply (One false (int_of (String a2 ""))). cbn in Dh. apply andb_prop in Dh as [_ Dh]. now apply int_numeral.
    + apply (no_pattern c true (String a1 (String a2 "")) mis ss h mi s t Hc); assumption.
Qed.

(** what every accepted text looks like *)
Lemma in_rx_day c s g r : c <> Yearless -> In (g, r) (rx_day c s) ->
  exists ds ms ys, g = (ds, Some (ms, ys)) /\ s = (ds ++ " " ++ ms ++ " " ++ ys ++ r) /\ every is_digit ds = true /\ (String.length ds = 1 \/ String.length ds = 2)%nat /\
    every is_alpha ms = true /\ every is_digit ys = true /\ ys <> "".
Proof.
  intros Hc H.
  assert (H' : In (g, r) (seq_rx digits12 (fun d => seq_rx (lit " ") (fun _ => seq_rx (plus is_alpha) (fun m => seq_rx (lit " ") (fun _ => seq_rx (plus is_digit) (fun y => ret (d, Some (m, y))))))) s))
    by (destruct c; try congruence; exact H).
  apply in_then in H' as (ds & r1 & H1 & H2). apply in_digits12 in H1 as (-> & D & L).
  apply in_then in H2 as (b & r2 & H2 & H3). apply in_lit in H2 as [-> ->].
  apply in_then in H3 as (ms & r3 & H3 & H4). apply in_plus in H3 as (-> & A & _).
  apply in_then in H4 as (b & r4 & H4 & H5). apply in_lit in H4 as [-> ->].
  apply in_then in H5 as (ys & r5 & H5 & H6). apply in_plus in H5 as (-> & Dy & Ny). destruct H6 as [H6|[]]. injection H6 as <- <-.
  exists ds, ms, ys. repeat split; auto.
Qed.
Lemma in_rx_clock s g r : In (g, r) (rx_clock s) ->
  exists hs mis, every is_digit hs = true /\ (String.length hs = 1 \/ String.length hs = 2)%nat /\ every is_digit mis = true /\ String.length mis = 2%nat /\
    ((exists b, blank b /\ g = (Some hs, Some mis, None) /\ s = hs ++ ":" ++ mis ++ String b r) \/
     (exists ss, every is_digit ss = true /\ String.length ss = 2%nat /\ g = (Some hs, Some mis, Some ss) /\ s = hs ++ ":" ++ mis ++ ":" ++ ss ++ r)).
Proof.
  intros H. apply in_then in H as (hs & r1 & H1 & H2). apply in_digits12 in H1 as (-> & Dh & Lh).
  apply in_then in H2 as (b & r2 & H2 & H3). apply in_lit in H2 as [-> ->].
  apply in_then in H3 as (mis & r3 & H3 & H4). apply in_digits2 in H3 as (-> & Dm & Lm).
  exists hs, mis. repeat split; auto. unfold alt in H4. apply in_app_or in H4 as [H4|H4]; [left|right].
  - apply in_then in H4 as (b & r4 & H4 & H5). apply in_one in H4 as [-> Hb]. destruct H5 as [H5|[]]. injection H5 as <- <-. exists b. repeat split; auto. now apply blank_space.
  - apply in_then in H4 as (b & r4 & H4 & H5). apply in_lit in H4 as [-> ->]. apply in_then in H5 as (ss & r5 & H5 & H6). apply in_digits2 in H5 as (-> & Ds & Ls).
    destruct H6 as [H6|[]]. injection H6 as <- <-. exists ss. repeat split; auto.
Qed.
(** the part of the text before the date, and what it says of the time of day *)
Definition before_date (front : string) (k : clock_groups) : Prop :=
  front = "" /\ k = (None, None, None) \/
  exists f hs mis, every is_digit hs = true /\ (String.length hs = 1 \/ String.length hs = 2)%nat /\ every is_digit mis = true /\ String.length mis = 2%nat /\
    ((exists b, blank b /\ k = (Some hs, Some mis, None) /\ front = f ++ hs ++ ":" ++ mis ++ String b "") \/
     (exists ss, every is_digit ss = true /\ String.length ss = 2%nat /\ k = (Some hs, Some mis, Some ss) /\ front = f ++ hs ++ ":" ++ mis ++ ":" ++ ss)).
Lemma search_sound c start s k g : c <> Yearless -> search c start s = Some (k, g) ->
  exists front ds ms ys rest, g = (ds, Some (ms, ys)) /\ s = front ++ ds ++ " " ++ ms ++ " " ++ ys ++ rest /\ every is_digit ds = true /\ (String.length ds = 1 \/ String.length ds = 2)%nat /\
    every is_alpha ms = true /\ every is_digit ys = true /\ ys <> "" /\ before_date front k /\ (start = false -> front <> "").
Proof.
  intros Hc. revert start. induction s as [|a s IH]; intros start.
  - cbn [search]. destruct (rx_pattern c start "") as [|[g' r'] l] eqn:E; [discriminate|]. exfalso.
    assert (In (g', r') (rx_pattern c start "")) as H by (rewrite E; now left). unfold rx_pattern in H. apply in_then in H as (x & r & H1 & H2).
    unfold alt in H1. apply in_app_or in H1 as [H1|H1].
    + apply in_then in H1 as (hs & r1 & H1 & _). apply in_digits12 in H1 as (H1 & _ & L). destruct hs; [cbn in L; lia | discriminate H1].
    + destruct start; [|destruct H1]. destruct H1 as [H1|[]]. injection H1 as <- <-. apply in_then in H2 as (g0 & r0 & H2 & _).
      apply (in_rx_day c _ _ _ Hc) in H2 as (ds & ms & ys & _ & H2 & _ & L & _). destruct ds; [cbn in L; lia | discriminate H2].
  - cbn [search]. destruct (rx_pattern c start (String a s)) as [|[g' r'] l] eqn:E.
    + intros H. destruct (IH false H) as (front & ds & ms & ys & rest & -> & -> & H1 & H2 & H3 & H4 & H5 & H6 & H7).
      exists (String a front), ds, ms, ys, rest. repeat split; auto.
      * destruct H6 as [[H6 _]|(f & hs & mis & Q1 & Q2 & Q3 & Q4 & Q5)]; [exfalso; now apply H7|]. right. exists (String a f), hs, mis. repeat split; auto.
        destruct Q5 as [(b & B1 & B2 & B3)|(ss & B1 & B2 & B3 & B4)]; [left; exists b; repeat split; auto | right; exists ss; repeat split; auto]; [now rewrite B3 | now rewrite B4].
      * discriminate.
    + intros H. injection H as ->. 
      assert (In ((k, g), r') (rx_pattern c start (String a s))) as H by (rewrite E; now left). unfold rx_pattern in H. apply in_then in H as (x & r & H1 & H2).
      apply in_then in H2 as (g0 & r0 & H2 & H3). destruct H3 as [H3|[]]. injection H3 as -> -> ->.
      apply (in_rx_day c _ _ _ Hc) in H2 as (ds & ms & ys & -> & -> & Q1 & Q2 & Q3 & Q4 & Q5).
      unfold alt in H1. apply in_app_or in H1 as [H1|H1].
      * apply in_rx_clock in H1 as (hs & mis & C1 & C2 & C3 & C4 & [(b & B1 & B2 & B3)|(ss & B1 & B2 & B3 & B4)]).
        -- exists (hs ++ ":" ++ mis ++ String b ""), ds, ms, ys, r'. rewrite B3. repeat split; auto.
           ++ do 4 (rewrite ?app_assoc'; cbn [append]); reflexivity.
           ++ right. exists "", hs, mis. repeat split; auto. left. exists b. auto.
           ++ intros _ N. destruct hs; [cbn in C2; lia | discriminate N].
        -- exists (hs ++ ":" ++ mis ++ ":" ++ ss), ds, ms, ys, r'. rewrite B4. repeat split; auto.
           ++ do 4 (rewrite ?app_assoc'; cbn [append]); reflexivity.
           ++ right. exists "", hs, mis. repeat split; auto. right. exists ss. auto.
           ++ intros _ N. destruct hs; [cbn in C2; lia | discriminate N].
      * destruct start; [|destruct H1]. destruct H1 as [H1|[]]. injection H1 as <- H1. 
        exists "", ds, ms, ys, r'. repeat split; auto; [now left | discriminate].
Qed.
