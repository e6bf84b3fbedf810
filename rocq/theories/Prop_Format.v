(** C50: format-xml keeps the content of a file and brings equal content to equal text.
    [format_text] is the tool (Format.v), [parse] the XML parser, [content] and [data] are in
    SpecFormat.v.

    Missing: texts with blank lines or U+0085 and attribute values with line feeds or tabs (refuted
    below); elements with both text and child elements; comments, processing instructions, CDATA
    sections, DOCTYPE. *)
From Coq Require Import String Ascii List Bool NArith.
From Verif Require Import PyBase Xml Serial SpecSerial Format SpecFormat FormatProps FormatCases.
Import ListNotations.
Open Scope string_scope.
Open Scope list_scope.

(** the formatted file has the same content, and formatting it again changes nothing *)
Theorem C50_format_partial : forall s n, parse s = Some n -> data n ->
  exists s' n', format_text s = Some s' /\ parse s' = Some n' /\ data n' /\ content n' = content n /\ format_text s' = Some s'.
Proof. exact format_result. Qed.
Print Assumptions C50_format_partial.

(** two files are formatted alike exactly when they have the same content *)
Theorem C50_normal_form_partial : forall s1 s2 n1 n2, parse s1 = Some n1 -> parse s2 = Some n2 -> data n1 -> data n2 ->
  (format_text s1 = format_text s2 <-> content n1 = content n2).
Proof. exact format_iff. Qed.
Print Assumptions C50_normal_form_partial.

(** a blank line inside a text is lost *)
Theorem C50_blank_line_refuted : exists s s' n n', parse s = Some n /\ format_text s = Some s' /\ parse s' = Some n' /\
  content n = El "A" [] (Some ("x" ++ nl ++ nl ++ "y")%string) [] /\ content n' = El "A" [] (Some ("x" ++ nl ++ "y")%string) [].
Proof. exact blank_line_lost. Qed.
Print Assumptions C50_blank_line_refuted.

(** the control character U+0085 becomes a line feed *)
Theorem C50_next_line_refuted : exists s s' n n', parse s = Some n /\ format_text s = Some s' /\ parse s' = Some n' /\
  content n = El "A" [] (Some ("x" ++ str1 (ascii_of_nat 133) ++ "y")%string) [] /\ content n' = El "A" [] (Some ("x" ++ nl ++ "y")%string) [].
Proof. exact next_line_lost. Qed.
Print Assumptions C50_next_line_refuted.

(** a line feed in the value of an attribute becomes a blank *)
Theorem C50_attribute_refuted : exists s s' n n', parse s = Some n /\ format_text s = Some s' /\ parse s' = Some n' /\
  content n = El "A" [("k", ("x" ++ nl ++ "y")%string)] None [] /\ content n' = El "A" [("k", "x y")] None [].
Proof. exact attribute_lost. Qed.
Print Assumptions C50_attribute_refuted.

(** text next to child elements gets white space around it *)
Theorem C50_mixed_refuted : exists s s', load_tree s = Some (El "A" [] (Some "x") [El "B" [] None []]) /\ format_text s = Some s' /\ load_tree s' = Some (El "A" [] (Some (nl ++ "  x" ++ nl ++ "  ")%string) [El "B" [] None []]).
Proof. exact mixed_text. Qed.
Print Assumptions C50_mixed_refuted.

(** a file written on one line, and one with tabs, CR LF, blank lines and the attributes in another
    order: both hold data, the same content, and are formatted to the same text *)
Example C50_case : exists n1 n2, parse one_line_file = Some n1 /\ parse wide_file = Some n2 /\ one_line_file <> wide_file /\
  data n1 /\ data n2 /\ content n1 = content n2 /\ format_text one_line_file = Some tidy_file /\ format_text wide_file = Some tidy_file.
Proof. exact format_case. Qed.
