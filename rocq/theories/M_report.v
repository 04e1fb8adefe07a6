(** * M_report: the results file when grate2tsv starts, cmd/grate2tsv/main.go:102-114 *)
From Verif Require Export GoBase M_tsv.

(** the header is written if the file is empty; otherwise what comes is appended to what is there *)
Definition stats_opened (old : bytes) : bytes := if zlen old =? 0 then old ++ stats_header else old.
