import re
lit=re.search(r'`(.*)`',open('/repo/ripsrc/fileinfo/gitignore.go').read()).group(1)
cp=open('/repo/custom_patterns.txt').read()
def q(s): return s.replace('"','""')
def chunks(s,n=110):
    return [s[i:i+n] for i in range(0,len(s),n)]
out=r'''(** * Texts of the regular expressions of the code, and the generator of one of them

    Models /repo/genignore.go (the program that makes /repo/ripsrc/fileinfo/gitignore.go from /repo/custom_patterns.txt).  The texts are
    copied by tools/mkregex.py; in Go's notation of the strings a backslash is doubled, here it is not. *)
From Verif.Model Require Import Base GoStrings.

(** The regular expression of /repo/ripsrc/fileinfo/gitignore.go:7. *)
Definition ignore_source : bytes :=
'''
out+=" ++\n".join('  B "%s"'%q(c) for c in chunks(lit))+".\n"
out+=r'''
(** The regular expression of /repo/ripsrc/fileinfo/license.go:11. *)
Definition license_source : bytes := B "\/?(LICENSE|LICENCE|README|COPYING|LICENSE-.*|UNLICENSE|UNLICENCE)(\.(md|txt))?$".
(** The regular expression of /repo/ripsrc/code_info.go:201. *)
Definition generated_source : bytes := B "(GENERATED|DO NOT EDIT|DO NOT MODIFY|machine generated)".

(** /repo/custom_patterns.txt: each line, with the newline that ends it; the last line has none. *)
Definition custom_patterns : bytes :=
'''
ls=cp.split('\n'); assert ls[-1]!=''
items=[]
for i,l in enumerate(ls):
    items.append(('B "%s"'%q(l) if l else '')+((' ++ ' if l else '')+'[NL]' if i<len(ls)-1 else ''))
# group lines
out+="  concat [\n   "+";\n   ".join(items)+"].\n"
out+=r'''
(** ** The generator *)

(** strings.TrimSpace, for ASCII. *)
Definition trim_space : bytes -> bytes := trim (fun c => bool_decide (c = SP) || bool_decide (c = TAB) || bool_decide (c = NL) || bool_decide (c = CR)
  || bool_decide (c = "011"%char) || bool_decide (c = "012"%char)).

(** strings.Replace with a one-byte old text, all occurrences. *)
Fixpoint replace_all (c : ascii) (new s : bytes) : bytes :=
  match s with [] => [] | a :: r => (if bool_decide (a = c) then new else [a]) ++ replace_all c new r end.
(** format (genignore.go:37-41). *)
Definition format_line (l : bytes) : bytes := replace_all "*" (B "(.*?)") (replace_all "." (B "\.") l).

(** bufio.Reader.ReadString (genignore.go:52): the lines that end in a newline, without it.  What follows the last newline is
    returned by the last call together with io.EOF, and the loop ends without using it (lines 53-56). *)
Fixpoint read_strings (acc s : bytes) : list bytes :=
  match s with
  | [] => []
  | a :: r => if bool_decide (a = NL) then acc :: read_strings [] r else read_strings (acc ++ [a]) r
  end.
(** genignore.go:59-66: one line; None if it is skipped. *)
Definition pattern_of (l : bytes) : option bytes :=
  let l := trim_space l in
  match l with
  | [] => None
  | c :: _ =>
      if bool_decide (c = "#"%char) || bool_decide (c = "!"%char) || bool_decide (c = TAB) then None
      else Some (format_line (match index_byte "#" l with Some (S i) => trim_space (take (S i) l) | _ => l end))
  end.
(** parseFile (genignore.go:43-69). *)
Definition parse_file (text : bytes) : list bytes := omap pattern_of (read_strings [] text).
(** The expression written by main (genignore.go:71-83), without the backquotes around it. *)
Definition generate (text : bytes) : bytes := B "(" ++ join (B "|") (parse_file text) ++ B ")".
'''
open('/verif/rocq/theories/Model/GenIgnore.v','w').write(out)
