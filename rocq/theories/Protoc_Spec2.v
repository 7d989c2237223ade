(** What the lines of protoc say. *)
From Verif Require Import Protoc_Spec.

Definition in_quotes (s : string) : string := String dquote (s +++ String dquote EmptyString).
Definition one_part (s : string) : Prop := no_char ":" s = true.
Definition ends_sentence (s : string) : Prop := exists a, s = a +++ ".".
(** [said files line file' l c message]: the line tells the message about a place in a file, or
    about no file, in which case the name is empty; zeros stand for no position. *)
Inductive said (files : list proto_file) : string -> string -> Z -> Z -> string -> Prop :=
| SaidPlaced file shown l nl c nc message : plain_name file -> stands_for files file shown -> number l nl -> number c nc -> one_part message -> trim_space message <> "" ->
    said files (file +++ ":" +++ l +++ ":" +++ c +++ ":" +++ message) shown nl nc (trim_space message)
| SaidRecursivePlaced file shown l nl c nc chain : plain_name file -> stands_for files file shown -> number l nl -> number c nc -> one_part chain ->
    said files (file +++ ":" +++ l +++ ":" +++ c +++ ": File recursively imports itself: " +++ chain) shown nl nc ("File recursively imports itself " +++ chain +++ ".")
| SaidRecursive file shown chain : plain_name file -> stands_for files file shown -> one_part chain ->
    said files (file +++ ": File recursively imports itself: " +++ chain) shown 0 0 ("File recursively imports itself " +++ chain +++ ".")
| SaidExplicit file shown : plain_name file -> stands_for files file shown ->
    said files (file +++ ": Explicit default values are not allowed in proto3.") shown 0 0 "Explicit default values are not allowed in proto3."
| SaidFirst file shown : plain_name file -> stands_for files file shown ->
    said files (file +++ ": The first enum value must be zero in proto3.") shown 0 0 "The first enum value must be zero in proto3."
| SaidCamel file shown rest : plain_name file -> stands_for files file shown -> one_part rest -> ends_sentence rest ->
    said files (file +++ ": The JSON camel-case name of field" +++ rest) shown 0 0 ("The JSON camel-case name of field" +++ rest)
| SaidUndefined file shown name : plain_name file -> stands_for files file shown -> one_part name ->
    said files (file +++ ": " +++ in_quotes name +++ " is not defined.") shown 0 0 (in_quotes name +++ " is not defined.")
| SaidSeems file shown x y z told : plain_name file -> stands_for files file shown -> one_part x -> one_part y -> one_part z ->
    told = in_quotes x +++ " seems to be defined in " +++ in_quotes y +++ ", which is not imported by " +++ in_quotes z +++ ". To use it here, please add the necessary import." ->
    said files (file +++ ": " +++ told) shown 0 0 told
| SaidOption file shown rest : plain_name file -> stands_for files file shown -> one_part rest -> ends_sentence rest ->
    said files (file +++ ": Error while parsing option value for " +++ rest) shown 0 0 ("Error while parsing option value for " +++ rest)
| SaidSyntax file shown n nn rest : plain_name file -> stands_for files file shown -> number n nn ->
    rest = "Please use 'syntax = " +++ in_quotes "proto2" +++ ";' or 'syntax = " +++ in_quotes "proto3" +++ ";' to specify a syntax version." ->
    said files ("[libprotobuf WARNING google/protobuf/compiler/parser.cc:" +++ n +++ "] No syntax specified for the proto file: " +++ file +++ ". " +++ rest +++ " (Defaulted to proto2 syntax.)")
      shown 0 0 ("No syntax specified. " +++ rest)
| SaidMissing file : plain_name file -> said files (file +++ ": File not found.") "" 0 0 ("Import " +++ in_quotes file +++ " was not found.")
| SaidDirectory dir : plain_name dir -> said files (dir +++ ": warning: directory does not exist.") "" 0 0 ("Directory " +++ in_quotes dir +++ " does not exist.")
| SaidProgram name : plain_name name -> said files ("protoc-gen-" +++ name +++ ": program not found or is not executable") "" 0 0 ("protoc-gen-" +++ name +++ " not found or is not executable.")
| SaidFailed x name n nn : one_part x -> one_part name -> number n nn ->
    said files ("--" +++ x +++ "_out: protoc-gen-" +++ name +++ ": Plugin failed with status code " +++ n +++ ".") "" 0 0 ("protoc-gen-" +++ name +++ " failed with status code " +++ n +++ ".")
| SaidPlugin x message : one_part x -> (forall a b, message <> a +++ "_out: " +++ b) -> (forall b, message <> "protoc-gen-" +++ b) ->
    said files ("--" +++ x +++ "_out: " +++ message) "" 0 0 ("protoc-gen-" +++ x +++ ": " +++ message)
(** What the plugin has printed last stands before it on the line. *)
| SaidOutput text x name n nn : text <> "" -> one_part x -> one_part name -> number n nn ->
    (forall a b, text +++ "-" <> a +++ "--" +++ b) -> (forall a b, "-" +++ x <> a +++ "--" +++ b) -> (forall a b, "-" +++ name <> a +++ "--" +++ b) ->
    said files (text +++ "--" +++ x +++ "_out: protoc-gen-" +++ name +++ ": Plugin failed with status code " +++ n +++ ".") "" 0 0 ("protoc-gen-" +++ name +++ " failed with status code " +++ n +++ ": " +++ text).
