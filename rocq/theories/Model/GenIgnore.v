(** * Texts of the regular expressions of the code, and the generator of one of them

    Models /repo/genignore.go (the program that makes /repo/ripsrc/fileinfo/gitignore.go from /repo/custom_patterns.txt).  The texts are
    copied by tools/mkregex.py; in Go's notation of the strings a backslash is doubled, here it is not. *)
From Verif.Model Require Import Base GoStrings.

(** The regular expression of /repo/ripsrc/fileinfo/gitignore.go:7. *)
Definition ignore_source : bytes :=
  B "(Godeps|vendor/|Gopkg\.lock$|Gopkg\.toml$|glide\.lock$|glide\.yaml$|(^|/)go\.mod$|(^|/)go\.sum$|Cargo\.toml$|G" ++
  B "emfile$|\.gemspec$|node_modules|\.webpack|package\.json$|package-lock\.json$|yarn\.lock$|\.babelrc$|\.babelrc\" ++
  B ".js$|babel\.config\.js$|\.flowconfig$|\.eslintrc(\.js|\.json)?$|\.eslintignore$|\.npmrc$|\.bowerrc$|\.jshintrc" ++
  B "$|jsconfig\.json$|tsconfig\.json$|lerna\.json$|tslint\.(yaml|json)$|\.vscode/|\.angular-cli\.json$|gulpfile\.j" ++
  B "s$|\.jsbeautifyrc$|\.arc$|\.prettierignore$|mocha\.opts$|Gruntfile$|[-\.]min\.js$|[-\.]min\.css$|\.js\.map$|\." ++
  B "css\.map$|\.ipynb_checkpoints|proguard|\.class$|\.project$|\.jar$|^dexguard/|dexguard-project-(debug|release)\" ++
  B ".txt$|__pycache__|\.pyc$|\.flake8$|\.pylintrc$|tox\.ini$|\.pydevproject$|\.circleci|circle\.yml$|\.github|\.tr" ++
  B "avis\.yml$|vendor/bundle|vendor/cache|\.shippable\.yml$|\.codecov\.yml$|CMakeLists\.txt$|\.gitlab-ci\.yml$|\.d" ++
  B "rone\.yml$|\.codecov\.yml$|appveyor\.yml$|\.codeclimate\.yml$|\.dockerignore$|\.npmignore$|\.cmake\.in$|Makefi" ++
  B "le\.in$|Jenkinsfile$|^fastlane/Appfile$|^fastlane/Fastfile$|^build\.gradle$|^gradle\.properties$|LICENSE(\.md|" ++
  B "\.txt|\.rst)?|README(\.md|\.txt|\.rst)?|AUTHORS(\.md|\.txt|\.rst)?|CHANGELOG(\.md|\.txt|\.rst)?|CHANGES(\.md|\" ++
  B ".txt|\.rst)?|DCO(\.md|\.txt|\.rst)?|CONTRIBUTING(\.md|\.txt|\.rst)?|VERSION(\.md|\.txt|\.rst)?|CODE_OF_CONDUCT" ++
  B "(\.md|\.txt|\.rst)?|COPYING(\.md|\.txt|\.rst)?|ISSUE_TEMPLATE(\.md|\.txt|\.rst)?|NOTICE(\.md|\.txt|\.rst)?|MAI" ++
  B "NTAINERS(\.md|\.txt|\.rst)?|\.ar$|\.zip$|\.gz$|\.gzip$|\.Z$|\.tar$|\.bz2$|\.cab$|\.crx$|\.lz$|\.7z$|\.bzip$|\." ++
  B "bson$|\.nupkg$|\.eps$|\.ps$|\.gif$|\.png$|\.jpg$|\.jpeg$|\.ttf$|\.svg$|\.webp$|\.bmp$|\.ico$|\.psd$|\.tif$|\.t" ++
  B "iff$|\.xcf$|\.ico$|\.psd$|\.ai$|\.sketch$|\.icns$|\.icc$|\.[P]pdf$|\.doc$|\.xls$|\.docx$|\.docm$|\.dot$|\.dotm" ++
  B "$|\.xlsx$|\.ppt$|\.pptx$|\.rtf$|\.mpg$|\.mp3$|\.mp4$|\.ogg$|\.avi$|\.mov$|\.fla$|\.flv$|\.midi$|\.wmf$|\.woff$" ++
  B "|\.woff2$|\.eot$|\.otf$|\.a$|\.o$|\.dylib$|\.dll$|\.so$|\.pch$|\.tlb$|\.pdb$|\.ipdb$|\.nupkg$|\.ldf$|\.ndf$|\." ++
  B "plg$|\.h\.in$|\.lib$|\.la$|\.llblgenproj$|\.out$|\.app$|\.sqlite$|\.mdf$|\.sdf$|\.pem$|\.p12$|\.pfx$|\.asc$|\." ++
  B "pkcs12$|\.ipr$|\.iws$|\.iml$|\.sln$|\.csproj$|\.vbproj$|\.fsproj$|\.dbproj$|\.deb$|\.elf$|\.jxr$|\.bin$|\.swf$" ++
  B "|\.bin$|\.example$|\.log$|\.mailmap$|\.editorconfig$|robots\.txt$|\.vscodeignore$|\.coveragerc$|\.settings$|\." ++
  B "project$|\.bak$|Screengrabfile$|\.orc$)".

(** The regular expression of /repo/ripsrc/fileinfo/license.go:11. *)
Definition license_source : bytes := B "\/?(LICENSE|LICENCE|README|COPYING|LICENSE-.*|UNLICENSE|UNLICENCE)(\.(md|txt))?$".
(** The regular expression of /repo/ripsrc/code_info.go:201. *)
Definition generated_source : bytes := B "(GENERATED|DO NOT EDIT|DO NOT MODIFY|machine generated)".

(** /repo/custom_patterns.txt: each line, with the newline that ends it; the last line has none. *)
Definition custom_patterns : bytes :=
  concat [
   B "# custom patterns to ignore (in addition) to all from github/gitignore" ++ [NL];
   [NL];
   B "# golang" ++ [NL];
   B "Godeps" ++ [NL];
   B "vendor/" ++ [NL];
   B "Gopkg.lock$" ++ [NL];
   B "Gopkg.toml$" ++ [NL];
   B "glide.lock$" ++ [NL];
   B "glide.yaml$" ++ [NL];
   B "(^|/)go.mod$" ++ [NL];
   B "(^|/)go.sum$" ++ [NL];
   [NL];
   B "# rust" ++ [NL];
   B "Cargo.toml$" ++ [NL];
   [NL];
   B "# ruby" ++ [NL];
   B "Gemfile$" ++ [NL];
   B ".gemspec$" ++ [NL];
   [NL];
   B "# nodejs" ++ [NL];
   B "node_modules" ++ [NL];
   B ".webpack" ++ [NL];
   B "package.json$" ++ [NL];
   B "package-lock.json$" ++ [NL];
   B "yarn.lock$" ++ [NL];
   B ".babelrc$" ++ [NL];
   B ".babelrc.js$" ++ [NL];
   B "babel.config.js$" ++ [NL];
   B ".flowconfig$" ++ [NL];
   B ".eslintrc(.js|.json)?$" ++ [NL];
   B ".eslintignore$" ++ [NL];
   B ".npmrc$" ++ [NL];
   B ".bowerrc$" ++ [NL];
   B ".jshintrc$" ++ [NL];
   B "jsconfig.json$" ++ [NL];
   B "tsconfig.json$" ++ [NL];
   B "lerna.json$" ++ [NL];
   B "tslint.(yaml|json)$" ++ [NL];
   B ".vscode/" ++ [NL];
   B ".angular-cli.json$" ++ [NL];
   B "gulpfile.js$" ++ [NL];
   B ".jsbeautifyrc$" ++ [NL];
   B ".arc$" ++ [NL];
   B ".prettierignore$" ++ [NL];
   B "mocha.opts$" ++ [NL];
   B "Gruntfile$" ++ [NL];
   [NL];
   B "# web compressed" ++ [NL];
   B "[-.]min.js$" ++ [NL];
   B "[-.]min.css$" ++ [NL];
   B ".js.map$" ++ [NL];
   B ".css.map$" ++ [NL];
   [NL];
   B "# Jupyter notebook checkpoint file" ++ [NL];
   B ".ipynb_checkpoints" ++ [NL];
   [NL];
   B "# Java" ++ [NL];
   B "proguard" ++ [NL];
   B ".class$" ++ [NL];
   B ".project$" ++ [NL];
   B ".jar$" ++ [NL];
   B "^dexguard/" ++ [NL];
   B "dexguard-project-(debug|release).txt$" ++ [NL];
   [NL];
   B "# python" ++ [NL];
   B "__pycache__" ++ [NL];
   B ".pyc$" ++ [NL];
   B ".flake8$" ++ [NL];
   B ".pylintrc$" ++ [NL];
   B "tox.ini$" ++ [NL];
   B ".pydevproject$" ++ [NL];
   [NL];
   B "# build systems" ++ [NL];
   B ".circleci" ++ [NL];
   B "circle.yml$" ++ [NL];
   B ".github" ++ [NL];
   B ".travis.yml$" ++ [NL];
   B "vendor/bundle" ++ [NL];
   B "vendor/cache" ++ [NL];
   B ".shippable.yml$" ++ [NL];
   B ".codecov.yml$" ++ [NL];
   B "CMakeLists.txt$" ++ [NL];
   B ".gitlab-ci.yml$" ++ [NL];
   B ".drone.yml$" ++ [NL];
   B ".codecov.yml$" ++ [NL];
   B "appveyor.yml$" ++ [NL];
   B ".codeclimate.yml$" ++ [NL];
   B ".dockerignore$" ++ [NL];
   B ".npmignore$" ++ [NL];
   B ".cmake.in$" ++ [NL];
   B "Makefile.in$" ++ [NL];
   B "Jenkinsfile$" ++ [NL];
   B "^fastlane/Appfile$" ++ [NL];
   B "^fastlane/Fastfile$" ++ [NL];
   B "^build.gradle$" ++ [NL];
   B "^gradle.properties$" ++ [NL];
   [NL];
   B "# misc files" ++ [NL];
   B "LICENSE(.md|.txt|.rst)?" ++ [NL];
   B "README(.md|.txt|.rst)?" ++ [NL];
   B "AUTHORS(.md|.txt|.rst)?" ++ [NL];
   B "CHANGELOG(.md|.txt|.rst)?" ++ [NL];
   B "CHANGES(.md|.txt|.rst)?" ++ [NL];
   B "DCO(.md|.txt|.rst)?" ++ [NL];
   B "CONTRIBUTING(.md|.txt|.rst)?" ++ [NL];
   B "VERSION(.md|.txt|.rst)?" ++ [NL];
   B "CODE_OF_CONDUCT(.md|.txt|.rst)?" ++ [NL];
   B "COPYING(.md|.txt|.rst)?" ++ [NL];
   B "ISSUE_TEMPLATE(.md|.txt|.rst)?" ++ [NL];
   B "NOTICE(.md|.txt|.rst)?" ++ [NL];
   B "MAINTAINERS(.md|.txt|.rst)?" ++ [NL];
   [NL];
   B "# compressed files" ++ [NL];
   B ".ar$" ++ [NL];
   B ".zip$" ++ [NL];
   B ".gz$" ++ [NL];
   B ".gzip$" ++ [NL];
   B ".Z$" ++ [NL];
   B ".tar$" ++ [NL];
   B ".bz2$" ++ [NL];
   B ".cab$" ++ [NL];
   B ".crx$" ++ [NL];
   B ".lz$" ++ [NL];
   B ".7z$" ++ [NL];
   B ".bzip$" ++ [NL];
   B ".bson$" ++ [NL];
   B ".nupkg$" ++ [NL];
   [NL];
   B "# image files" ++ [NL];
   B ".eps$" ++ [NL];
   B ".ps$" ++ [NL];
   B ".gif$" ++ [NL];
   B ".png$" ++ [NL];
   B ".jpg$" ++ [NL];
   B ".jpeg$" ++ [NL];
   B ".ttf$" ++ [NL];
   B ".svg$" ++ [NL];
   B ".webp$" ++ [NL];
   B ".bmp$" ++ [NL];
   B ".ico$" ++ [NL];
   B ".psd$" ++ [NL];
   B ".tif$" ++ [NL];
   B ".tiff$" ++ [NL];
   B ".xcf$" ++ [NL];
   B ".ico$" ++ [NL];
   B ".psd$" ++ [NL];
   B ".ai$" ++ [NL];
   B ".sketch$" ++ [NL];
   B ".icns$" ++ [NL];
   B ".icc$" ++ [NL];
   [NL];
   B "# doc files" ++ [NL];
   B ".[P]pdf$" ++ [NL];
   B ".doc$" ++ [NL];
   B ".xls$" ++ [NL];
   B ".docx$" ++ [NL];
   B ".docm$" ++ [NL];
   B ".dot$" ++ [NL];
   B ".dotm$" ++ [NL];
   B ".xlsx$" ++ [NL];
   B ".ppt$" ++ [NL];
   B ".pptx$" ++ [NL];
   B ".rtf$" ++ [NL];
   [NL];
   B "# audio/video files" ++ [NL];
   B ".mpg$" ++ [NL];
   B ".mp3$" ++ [NL];
   B ".mp4$" ++ [NL];
   B ".ogg$" ++ [NL];
   B ".avi$" ++ [NL];
   B ".mov$" ++ [NL];
   B ".fla$" ++ [NL];
   B ".flv$" ++ [NL];
   B ".midi$" ++ [NL];
   B ".wmf$" ++ [NL];
   [NL];
   B "# font files" ++ [NL];
   B ".woff$" ++ [NL];
   B ".woff2$" ++ [NL];
   B ".eot$" ++ [NL];
   B ".otf$" ++ [NL];
   [NL];
   B "# compiler files" ++ [NL];
   B ".a$" ++ [NL];
   B ".o$" ++ [NL];
   B ".dylib$" ++ [NL];
   B ".dll$" ++ [NL];
   B ".so$" ++ [NL];
   B ".pch$" ++ [NL];
   B ".tlb$" ++ [NL];
   B ".pdb$" ++ [NL];
   B ".ipdb$" ++ [NL];
   B ".nupkg$" ++ [NL];
   B ".ldf$" ++ [NL];
   B ".ndf$" ++ [NL];
   B ".plg$" ++ [NL];
   B ".h.in$" ++ [NL];
   B ".lib$" ++ [NL];
   B ".la$" ++ [NL];
   B ".llblgenproj$" ++ [NL];
   B ".out$" ++ [NL];
   B ".app$" ++ [NL];
   [NL];
   B "# database files" ++ [NL];
   B ".sqlite$" ++ [NL];
   B ".mdf$" ++ [NL];
   B ".sdf$" ++ [NL];
   [NL];
   B "# crypto related files" ++ [NL];
   B ".pem$" ++ [NL];
   B ".p12$" ++ [NL];
   B ".pfx$" ++ [NL];
   B ".asc$" ++ [NL];
   B ".pkcs12$" ++ [NL];
   [NL];
   B "# idea" ++ [NL];
   B ".ipr$" ++ [NL];
   B ".iws$" ++ [NL];
   B ".iml$" ++ [NL];
   [NL];
   B "# visual studio" ++ [NL];
   B ".sln$" ++ [NL];
   B ".csproj$" ++ [NL];
   B ".vbproj$" ++ [NL];
   B ".fsproj$" ++ [NL];
   B ".dbproj$" ++ [NL];
   [NL];
   B "# misc files" ++ [NL];
   B ".deb$" ++ [NL];
   B ".elf$" ++ [NL];
   B ".jxr$" ++ [NL];
   B ".bin$" ++ [NL];
   B ".swf$" ++ [NL];
   B ".bin$" ++ [NL];
   B ".example$" ++ [NL];
   B ".log$" ++ [NL];
   B ".mailmap$" ++ [NL];
   B ".editorconfig$" ++ [NL];
   B "robots.txt$" ++ [NL];
   B ".vscodeignore$" ++ [NL];
   B ".coveragerc$" ++ [NL];
   B ".settings$" ++ [NL];
   B ".project$" ++ [NL];
   B ".bak$" ++ [NL];
   B "Screengrabfile$" ++ [NL];
   [NL];
   B "# compressed storage" ++ [NL];
   B ".orc$" ++ [NL];
   B ".parquet$"].

(** ** The generator *)

(** strings.Replace with a one-byte old text, all occurrences. *)
Fixpoint replace_all (c : ascii) (new s : bytes) : bytes :=
  match s with [] => [] | a :: r => (if bool_decide (a = c) then new else [a]) ++ replace_all c new r end.
(** format (genignore.go:37-41). *)
Definition format_line (l : bytes) : bytes := replace_all "*" (B "(.*?)") (replace_all "." (B "\.") l).

(** bufio.Reader.ReadString (genignore.go:52): the lines that end in a newline, without it.  What follows the last newline is
    returned by the last call together with io.EOF, and the loop ends without using it (lines 53-56). *)
Fixpoint read_strings (acc s : bytes) : list bytes :=
  match s with
  | [] => []
  | a :: r => if bool_decide (a = NL) then acc :: read_strings [] r else read_strings (acc ++ [a]) r
  end.
(** genignore.go:59-66: one line; None if it is skipped. *)
Definition pattern_of (l : bytes) : option bytes :=
  let l := trim_space l in
  match l with
  | [] => None
  | c :: _ =>
      if bool_decide (c = "#"%char) || bool_decide (c = "!"%char) || bool_decide (c = TAB) then None
      else Some (format_line (match index_byte "#" l with Some (S i) => trim_space (take (S i) l) | _ => l end))
  end.
(** parseFile (genignore.go:43-69). *)
Definition parse_file (text : bytes) : list bytes := omap pattern_of (read_strings [] text).
(** The expression written by main (genignore.go:71-83), without the backquotes around it. *)
Definition generate (text : bytes) : bytes := B "(" ++ join (B "|") (parse_file text) ++ B ")".
