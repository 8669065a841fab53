(** * Specification vocabulary for whole files (C39) *)

From Verif Require Export HandlerSpec ParserSpec SectSpec PkgTextSpec.
From Verif Require Import Value.
Local Open Scope string_scope.
Local Open Scope list_scope.

(** One line of text without the newline. *)
Definition one_line (s : string) : bool := all_chars (fun c => negb (is_linebreak c)) s.
(** What can be written after "#platform=". *)
Definition platform_name (s : string) : Prop := one_line s = true /\ strip s = s.

(** A text of command lines, blank lines and comments that name no platform. *)
Definition command_text (T : string) : Prop :=
  complete T = true /\
  forallb (fun l => is_command l || inert l) (splitlines T) = true.

(** Scripts and package selections that a file can express: see C19 and C25. *)
Definition file_sections (ver : Z) (s : sechandler) : Prop :=
  Forall (writable (map fst setup_sections)) (sh_scripts s) /\ sh_nulls s = [] /\
  (packages_str ver (sh_packages s) = "" \/
   fits ver (sh_packages s) /\ proper_lists (sh_packages s) /\ clear_groups (sh_packages s)).
(** The same scripts, but for line numbers and a newline at the end of the text. *)
Definition same_scripts (l l' : list script) : Prop := Forall2 (fun s s' => exists ln, s' = rewritten ln s) l l'.

(** A handler without scripts and packages, as it is before parsing. *)
Definition no_sections_yet : sechandler := mkSH [] new_packages [].
