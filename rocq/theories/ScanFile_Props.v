(** Property C194: the file names of scans. *)
From Coq Require Import ZArith Lia String DecimalString DecimalN.
From Verif Require Import Py Str Arr Spec_Model Fio_Model.
Local Open Scope string_scope.

(** The number that a string of digits stands for *)
Definition digits_value (s : string) : option N := option_map N.of_uint (NilEmpty.uint_of_string s).
Lemma decimal_value n : digits_value (decimal n) = Some n.
Proof. unfold digits_value, decimal. rewrite NilEmpty.usu. cbn [option_map]. rewrite Unsigned.of_to. reflexivity. Qed.
Lemma zeros_value k s : digits_value (zeros k ++ s) = digits_value s.
Proof. induction k as [|k IH]; [reflexivity|]. rewrite <- IH. unfold digits_value. cbn. destruct (NilEmpty.uint_of_string (zeros k ++ s)); reflexivity. Qed.
Lemma pad_value k n : digits_value (pad k (decimal n)) = Some n.
Proof. unfold pad. rewrite zeros_value. apply decimal_value. Qed.
Lemma minus_value s : digits_value ("-" ++ s) = None.
Proof. unfold digits_value. cbn. destruct (NilEmpty.uint_of_string s); reflexivity. Qed.
Lemma zeros_length k : String.length (zeros k) = k.
Proof. induction k as [|k IH]; cbn; congruence. Qed.
Lemma pad_length k s : String.length (pad k s) = Nat.max k (String.length s).
Proof. unfold pad. assert (A : forall a b, String.length (a ++ b) = (String.length a + String.length b)%nat) by (induction a; intros; cbn; congruence). rewrite A, zeros_length. lia. Qed.
Lemma app_cancel a b c : a ++ b = a ++ c -> b = c.
Proof. induction a as [|x a IH]; cbn; [auto|]. intros E. injection E as E. auto. Qed.
Lemma app_cancel_r a b c : a ++ c = b ++ c -> a = b.
Proof. assert (L : forall x y, String.length (x ++ y) = (String.length x + String.length y)%nat) by (induction x; intros; cbn; congruence). intros E. assert (Q : String.length a = String.length b) by (apply (f_equal String.length) in E; rewrite !L in E; lia).
  revert b E Q. induction a as [|x a IH]; intros [|y b] E Q; try discriminate; [reflexivity|]. cbn in E. injection E as -> E. injection Q as Q. f_equal. auto. Qed.

(** ** C194 *)
(** Different scan numbers, also negative ones, never share a file. *)
Theorem C194_distinct p n k : scan_path p n = scan_path p k -> n = k.
Proof. unfold scan_path. intros E. apply app_cancel in E. injection E as E. apply app_cancel_r in E. unfold fmt05 in E. apply (f_equal digits_value) in E as V. destruct (Z.ltb_spec n 0), (Z.ltb_spec k 0); rewrite ?minus_value, ?pad_value in V; try discriminate.
  - apply (app_cancel "-") in E. apply (f_equal digits_value) in E. rewrite !pad_value in E. injection E as E. lia.
  - injection V as V. lia. Qed.
Print Assumptions C194_distinct.
(** The part between the underscore and the ending has five characters, more only if the number needs them; it is the number with leading zeros, after a minus sign if it is negative. *)
Theorem C194_name p n : exists s, scan_path p n = fp_stem p ++ "_" ++ s ++ ".fio" /\ String.length s = Nat.max 5 (String.length (NilEmpty.string_of_int (Z.to_int n))) /\
  ((0 <= n)%Z -> digits_value s = Some (Z.to_N n)) /\ ((n < 0)%Z -> exists t, s = "-" ++ t /\ digits_value t = Some (Z.to_N (- n))).
Proof. exists (fmt05 n). split; [reflexivity|]. unfold fmt05. destruct (Z.ltb_spec n 0) as [H|H].
  - split; [cbn [append String.length]; rewrite pad_length; destruct n as [|q|q]; try lia; cbn -[Nat.max]; change (decimal (N.pos q)) with (NilEmpty.string_of_uint (Pos.to_uint q)); lia|]. split; [lia|]. intros _. eexists. split; [reflexivity|apply pad_value].
  - split; [rewrite pad_length; destruct n as [|q|q]; [reflexivity|reflexivity|lia]|]. split; [intros _; apply pad_value|lia]. Qed.
Print Assumptions C194_name.
Example C194_example p : scan_path p 7 = fp_stem p ++ "_00007.fio" /\ scan_path p (-7) = fp_stem p ++ "_-0007.fio" /\ scan_path p 123456 = fp_stem p ++ "_123456.fio".
Proof. repeat split. Qed.
