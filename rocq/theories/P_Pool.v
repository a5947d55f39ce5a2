(** C154-C155: text kernels. *)
From Coq Require Import List Ascii String ZArith QArith Bool Lia.
From Coq Require Import List.
From Verif Require Import Download_Model Files_Model Files_Spec Files_Proofs Pool_Model Pool_Spec Pool_Proofs.
Import ListNotations.
Open Scope list_scope.

(** * C154 *)
Theorem C154_tokens_of_a_line_partial : forall ts line, written ts line -> tokens_of line = ts.
Proof. exact written_tokens. Qed.
Print Assumptions C154_tokens_of_a_line_partial.
Theorem C154_tokens_of_a_file_partial : forall ts lines, document ts lines -> parse_tokens false lines = ts.
Proof. exact document_tokens. Qed.
Print Assumptions C154_tokens_of_a_file_partial.
Example C154_ex : document (flat_map show demo_list) demo_lines /\
  flat_map show demo_list = map chars ["BODY9_RADII"; "="; "("; "1.5D3"; "-2"; "+.25"; ")"; "BODY9_NAME"; "="; "'it is'"]%string.
Proof. split; [exact demo_document|reflexivity]. Qed.
Theorem C154_other_files_refused : forall file vars, (forall m r, In m [chars "KPL/FK"; chars "KPL/PCK"] -> file <> m ++ r) -> read_text file vars = None.
Proof. exact read_refused. Qed.
Print Assumptions C154_other_files_refused.
Example C154_other_ex : forall m r, In m [chars "KPL/FK"; chars "KPL/PCK"] -> chars "DAF/PCK" <> m ++ r.
Proof. intros m r [<-|[<-|[]]]; discriminate. Qed.
Theorem C154_tabs_do_not_separate_refuted : exists s, tokens_of (chars "AB" ++ s ++ chars "=" ++ s ++ chars "5") <> [chars "AB"; chars "="; chars "5"] /\ only blanks s /\ s <> [].
Proof. exact tab_glues. Qed.
Print Assumptions C154_tabs_do_not_separate_refuted.
Theorem C154_doubled_quote_refuted : exists u w, tokens_of (chars "'" ++ u ++ chars "''" ++ w ++ chars "'") <> [chars "'" ++ u ++ chars "''" ++ w ++ chars "'"].
Proof. exact doubled_quote. Qed.
Print Assumptions C154_doubled_quote_refuted.

(** * C155 *)
Theorem C155_values_partial : forall t v, means t v -> exists v', evaluate t = Some v' /\ same_literal v v'.
Proof. exact evaluate_means. Qed.
Print Assumptions C155_values_partial.
Example C155_values_ex : means (chars "-12.5D-1") (Float (-(125 # 100))).
Proof.
  apply (means_float (Decimal Minus (chars "12") (Some (chars "5")) (Some ("D"%char, Minus, chars "1")))); [|intros (X & _); discriminate|reflexivity].
  split; [split; [discriminate|apply only_b; reflexivity]|]. split; [apply letters_in; reflexivity|]. split; [discriminate|apply only_b; reflexivity].
Qed.
Theorem C155_kernel_read_partial : forall m b l lines vars, In m [chars "KPL/FK"; chars "KPL/PCK"] -> only blanks b -> none_of [line_feed] b ->
  Forall whole_line lines -> (forall n e vs t, In (n, e, vs) l -> In t vs -> exists v, means t v) -> document (flat_map show l) lines ->
  exists vars', read_text (m ++ b ++ [line_feed] ++ List.concat lines) vars = Some vars' /\ pool_after l vars vars'.
Proof. exact kernel_read. Qed.
Print Assumptions C155_kernel_read_partial.
Example C155_ex : Forall whole_line demo_lines /\ (forall n e vs t, In (n, e, vs) demo_list -> In t vs -> exists v, means t v) /\
  exists vars, read_text (chars "KPL/PCK" ++ [] ++ [line_feed] ++ List.concat demo_lines) (fun _ => None) = Some vars /\ vars (chars "BODY9_NAME") = Some (Scalar (Text (chars "it is"))).
Proof. split; [exact demo_whole|]. split; [exact demo_means|]. eexists. split; [reflexivity|]. reflexivity. Qed.
Theorem C155_negative_integers_become_real : forall n, numeral n -> exists q, evaluate (chars "-" ++ n) = Some (Float q) /\ (q == inject_Z (- number_of (rev n)))%Q.
Proof. exact negative_float. Qed.
Print Assumptions C155_negative_integers_become_real.
Example C155_negative_ex : numeral (chars "3").
Proof. split; [discriminate|apply only_b; reflexivity]. Qed.
Theorem C155_lower_case_d_refuted : evaluate (chars "1.5d3") = None /\ exists q, evaluate (chars "1.5D3") = Some (Float q) /\ (q == 1500)%Q.
Proof. exact lower_d_refused. Qed.
Print Assumptions C155_lower_case_d_refuted.
Theorem C155_dates_refuted : forall r, evaluate (chars "@" ++ r) = None.
Proof. exact dates_refused. Qed.
Print Assumptions C155_dates_refuted.
(** One date anywhere in a kernel, and the whole kernel is refused. *)
Theorem C155_kernel_with_a_date_refuted : forall m b l lines vars n e vs r, In m [chars "KPL/FK"; chars "KPL/PCK"] -> only blanks b -> none_of [line_feed] b -> Forall whole_line lines ->
  (forall n e vs t, In (n, e, vs) l -> In t vs -> plain_value t) -> document (flat_map show l) lines -> In (n, e, vs) l -> In (chars "@" ++ r) vs ->
  read_text (m ++ b ++ [line_feed] ++ List.concat lines) vars = None.
Proof. exact kernel_date. Qed.
Print Assumptions C155_kernel_with_a_date_refuted.
Example C155_date_ex : document (flat_map show dated_list) dated_lines /\ Forall whole_line dated_lines /\ (forall n e vs t, In (n, e, vs) dated_list -> In t vs -> plain_value t).
Proof. exact (conj dated_document dated_ok). Qed.
