(** * Which files are source code (package fileinfo)

    Models /repo/ripsrc/fileinfo/fileinfo.go, gitignore.go and license.go.  The external classifiers are parameters: enry's
    IsConfiguration, IsDotFile, IsVendor and GetLanguage, and the license detector (license_enabled.go:40-67, or
    license_disabled.go). *)
From Verif.Model Require Import Base GoStrings.
From Verif.Spec Require Import Text.

(** Does the text contain [lit]; at the start, at the end, or anywhere. *)
Definition lit_match (pat : bool * bytes * bool) (p : bytes) : bool :=
  match pat with
  | (true, l, true) => beq p l
  | (true, l, false) => has_prefix l p
  | (false, l, true) => has_suffix l p
  | (false, l, false) => contains l p
  end.

(** ignorePatterns (/repo/ripsrc/fileinfo/gitignore.go:7), transcribed by tools/mkignore.py: (anchored at the start, literal text, anchored
    at the end) for each alternative, with groups expanded.  Optional groups before the end of an alternative without
    anchor are dropped: they do not change which paths match. *)
Definition ignore_patterns : list (bool * bytes * bool) :=
  [
   (false, B "Godeps", false);
   (false, B "vendor/", false);
   (false, B "Gopkg.lock", true);
   (false, B "Gopkg.toml", true);
   (false, B "glide.lock", true);
   (false, B "glide.yaml", true);
   (true, B "go.mod", true);
   (false, B "/go.mod", true);
   (true, B "go.sum", true);
   (false, B "/go.sum", true);
   (false, B "Cargo.toml", true);
   (false, B "Gemfile", true);
   (false, B ".gemspec", true);
   (false, B "node_modules", false);
   (false, B ".webpack", false);
   (false, B "package.json", true);
   (false, B "package-lock.json", true);
   (false, B "yarn.lock", true);
   (false, B ".babelrc", true);
   (false, B ".babelrc.js", true);
   (false, B "babel.config.js", true);
   (false, B ".flowconfig", true);
   (false, B ".eslintrc.js", true);
   (false, B ".eslintrc.json", true);
   (false, B ".eslintrc", true);
   (false, B ".eslintignore", true);
   (false, B ".npmrc", true);
   (false, B ".bowerrc", true);
   (false, B ".jshintrc", true);
   (false, B "jsconfig.json", true);
   (false, B "tsconfig.json", true);
   (false, B "lerna.json", true);
   (false, B "tslint.yaml", true);
   (false, B "tslint.json", true);
   (false, B ".vscode/", false);
   (false, B ".angular-cli.json", true);
   (false, B "gulpfile.js", true);
   (false, B ".jsbeautifyrc", true);
   (false, B ".arc", true);
   (false, B ".prettierignore", true);
   (false, B "mocha.opts", true);
   (false, B "Gruntfile", true);
   (false, B "-min.js", true);
   (false, B ".min.js", true);
   (false, B "-min.css", true);
   (false, B ".min.css", true);
   (false, B ".js.map", true);
   (false, B ".css.map", true);
   (false, B ".ipynb_checkpoints", false);
   (false, B "proguard", false);
   (false, B ".class", true);
   (false, B ".project", true);
   (false, B ".jar", true);
   (true, B "dexguard/", false);
   (false, B "dexguard-project-debug.txt", true);
   (false, B "dexguard-project-release.txt", true);
   (false, B "__pycache__", false);
   (false, B ".pyc", true);
   (false, B ".flake8", true);
   (false, B ".pylintrc", true);
   (false, B "tox.ini", true);
   (false, B ".pydevproject", true);
   (false, B ".circleci", false);
   (false, B "circle.yml", true);
   (false, B ".github", false);
   (false, B ".travis.yml", true);
   (false, B ".shippable.yml", true);
   (false, B ".codecov.yml", true);
   (false, B "CMakeLists.txt", true);
   (false, B ".gitlab-ci.yml", true);
   (false, B ".drone.yml", true);
   (false, B "appveyor.yml", true);
   (false, B ".codeclimate.yml", true);
   (false, B ".dockerignore", true);
   (false, B ".npmignore", true);
   (false, B ".cmake.in", true);
   (false, B "Makefile.in", true);
   (false, B "Jenkinsfile", true);
   (true, B "fastlane/Appfile", true);
   (true, B "fastlane/Fastfile", true);
   (true, B "build.gradle", true);
   (true, B "gradle.properties", true);
   (false, B "LICENSE", false);
   (false, B "README", false);
   (false, B "AUTHORS", false);
   (false, B "CHANGELOG", false);
   (false, B "CHANGES", false);
   (false, B "DCO", false);
   (false, B "CONTRIBUTING", false);
   (false, B "VERSION", false);
   (false, B "CODE_OF_CONDUCT", false);
   (false, B "COPYING", false);
   (false, B "ISSUE_TEMPLATE", false);
   (false, B "NOTICE", false);
   (false, B "MAINTAINERS", false);
   (false, B ".ar", true);
   (false, B ".zip", true);
   (false, B ".gz", true);
   (false, B ".gzip", true);
   (false, B ".Z", true);
   (false, B ".tar", true);
   (false, B ".bz2", true);
   (false, B ".cab", true);
   (false, B ".crx", true);
   (false, B ".lz", true);
   (false, B ".7z", true);
   (false, B ".bzip", true);
   (false, B ".bson", true);
   (false, B ".nupkg", true);
   (false, B ".eps", true);
   (false, B ".ps", true);
   (false, B ".gif", true);
   (false, B ".png", true);
   (false, B ".jpg", true);
   (false, B ".jpeg", true);
   (false, B ".ttf", true);
   (false, B ".svg", true);
   (false, B ".webp", true);
   (false, B ".bmp", true);
   (false, B ".ico", true);
   (false, B ".psd", true);
   (false, B ".tif", true);
   (false, B ".tiff", true);
   (false, B ".xcf", true);
   (false, B ".ai", true);
   (false, B ".sketch", true);
   (false, B ".icns", true);
   (false, B ".icc", true);
   (false, B ".Ppdf", true);
   (false, B ".doc", true);
   (false, B ".xls", true);
   (false, B ".docx", true);
   (false, B ".docm", true);
   (false, B ".dot", true);
   (false, B ".dotm", true);
   (false, B ".xlsx", true);
   (false, B ".ppt", true);
   (false, B ".pptx", true);
   (false, B ".rtf", true);
   (false, B ".mpg", true);
   (false, B ".mp3", true);
   (false, B ".mp4", true);
   (false, B ".ogg", true);
   (false, B ".avi", true);
   (false, B ".mov", true);
   (false, B ".fla", true);
   (false, B ".flv", true);
   (false, B ".midi", true);
   (false, B ".wmf", true);
   (false, B ".woff", true);
   (false, B ".woff2", true);
   (false, B ".eot", true);
   (false, B ".otf", true);
   (false, B ".a", true);
   (false, B ".o", true);
   (false, B ".dylib", true);
   (false, B ".dll", true);
   (false, B ".so", true);
   (false, B ".pch", true);
   (false, B ".tlb", true);
   (false, B ".pdb", true);
   (false, B ".ipdb", true);
   (false, B ".ldf", true);
   (false, B ".ndf", true);
   (false, B ".plg", true);
   (false, B ".h.in", true);
   (false, B ".lib", true);
   (false, B ".la", true);
   (false, B ".llblgenproj", true);
   (false, B ".out", true);
   (false, B ".app", true);
   (false, B ".sqlite", true);
   (false, B ".mdf", true);
   (false, B ".sdf", true);
   (false, B ".pem", true);
   (false, B ".p12", true);
   (false, B ".pfx", true);
   (false, B ".asc", true);
   (false, B ".pkcs12", true);
   (false, B ".ipr", true);
   (false, B ".iws", true);
   (false, B ".iml", true);
   (false, B ".sln", true);
   (false, B ".csproj", true);
   (false, B ".vbproj", true);
   (false, B ".fsproj", true);
   (false, B ".dbproj", true);
   (false, B ".deb", true);
   (false, B ".elf", true);
   (false, B ".jxr", true);
   (false, B ".bin", true);
   (false, B ".swf", true);
   (false, B ".example", true);
   (false, B ".log", true);
   (false, B ".mailmap", true);
   (false, B ".editorconfig", true);
   (false, B "robots.txt", true);
   (false, B ".vscodeignore", true);
   (false, B ".coveragerc", true);
   (false, B ".settings", true);
   (false, B ".bak", true);
   (false, B "Screengrabfile", true);
   (false, B ".orc", true)].
Definition ignored (p : bytes) : bool := existsb (fun pat => lit_match pat p) ignore_patterns.

(** The suffixes of a text. *)
Fixpoint suffixes (s : bytes) : list bytes :=
  match s with [] => [[]] | _ :: r => s :: suffixes r end.

(** licenses and possibleLicense (/repo/ripsrc/fileinfo/license.go:11-15): the optional slash in front does not restrict anything. *)
Definition license_name (s : bytes) : bool :=
  existsb (fun w => existsb (fun x => beq s (w ++ x)) [[]; B ".md"; B ".txt"])
    [B "LICENSE"; B "LICENCE"; B "README"; B "COPYING"; B "UNLICENSE"; B "UNLICENCE"]
  || (has_prefix (B "LICENSE-") s && forallb (fun c => negb (bool_decide (c = NL))) s).
Definition possible_license (p : bytes) : bool := existsb license_name (suffixes p).

(** maxFileSize, maxLinePerFile, maxBytesPerLine (/repo/ripsrc/fileinfo/fileinfo.go:44-57). *)
Definition max_file_size : N := 1000000.
Definition max_line_per_file : N := 40000.
Definition max_bytes_per_line : N := 1096.

(** The reasons (fileinfo.go:20-30); %d is the decimal numeral. *)
Definition skip_language_unknown : bytes := B "Language was unknown".
Definition skip_file_size (size : N) : bytes :=
  B "File size was " ++ show (size / 1000) ++ B "K which exceeds limit of " ++ show (max_file_size / 1000) ++ B "K".
Definition skip_max_lines : bytes := B "File has more than " ++ show max_line_per_file ++ B " lines".
Definition skip_max_line_bytes (n : N) : bytes :=
  B "File has a line width of " ++ show n ++ B " which is greater than max of " ++ show max_bytes_per_line.
Definition skip_config_file : bytes := B "File was a config file".
Definition skip_dot_file : bytes := B "File was a dot file".
Definition skip_blacklisted : bytes := B "File was on an exclusion list".
Definition skip_vendored_file : bytes := B "File was a vendored file".
Definition skip_license : bytes := B "File is a license file".

Definition blen (s : bytes) : N := N.of_nat (length s).

(** The external classifiers. *)
Record classifiers (L : Type) := Classifiers {
  cl_config : bytes -> bool;
  cl_dot : bytes -> bool;
  cl_vendor : bytes -> bool;
  cl_language : bytes -> bytes -> bytes;
  cl_license : bytes -> bytes -> outcome (option L) }.
Arguments cl_config {L}. Arguments cl_dot {L}. Arguments cl_vendor {L}. Arguments cl_language {L}. Arguments cl_license {L}.

Section FileInfo.
Context {L : Type} (cl : classifiers L).

(** isVendored (fileinfo.go:124-136). *)
Definition is_vendored (p : bytes) : bool :=
  if cl_vendor cl p then negb (has_prefix (B "src/") p) else false.

(** checkFilePathUncached (fileinfo.go:108-122). *)
Definition check_file_path_uncached (p : bytes) : bytes :=
  if cl_config cl p then skip_config_file
  else if cl_dot cl p then skip_dot_file
  else if ignored p then skip_blacklisted
  else if is_vendored p then skip_vendored_file
  else [].

(** checkFilePath (fileinfo.go:99-106): the cache is [Process.checkFilePathCache] (10-18). *)
Definition check_file_path (cache : gmap bytes bytes) (p : bytes) : bytes * gmap bytes bytes :=
  match cache !! p with
  | Some r => (r, cache)
  | None => let r := check_file_path_uncached p in (r, <[p := r]> cache)
  end.

(** Info (fileinfo.go:38-42) without the unused SkipReason, and the second result of GetInfo. *)
Record info := Info { i_language : bytes; i_license : option L; i_skip : bytes }.

Fixpoint first_long_line (ls : list bytes) : option N :=
  match ls with
  | [] => None
  | l :: r => if (max_bytes_per_line <? blen l)%N then Some (blen l) else first_long_line r
  end.

(** GetInfo (fileinfo.go:59-97). *)
Definition get_info (cache : gmap bytes bytes) (p content : bytes) (lines : list bytes) : outcome (info * gmap bytes bytes) :=
  if (max_file_size <? blen content)%N then Ret (Info [] None (skip_file_size (blen content)), cache)
  else
    do lic <- (if possible_license p then
                 match cl_license cl p content with Ret l => Ret l | Err e => Panic e | Panic m => Panic m end
               else Ret None);
    match lic with
    | Some l => Ret (Info [] (Some l) skip_license, cache)
    | None =>
        let '(skip, cache) := check_file_path cache p in
        if bool_decide (skip <> []) then Ret (Info [] None skip, cache)
        else if (max_line_per_file <? N.of_nat (length lines))%N then Ret (Info [] None skip_max_lines, cache)
        else match first_long_line lines with
             | Some n => Ret (Info [] None (skip_max_line_bytes n), cache)
             | None =>
                 let lang := cl_language cl p content in
                 if bool_decide (lang = []) then Ret (Info lang None skip_language_unknown, cache)
                 else Ret (Info lang None [], cache)
             end
    end.
End FileInfo.
Arguments info L : clear implicits.
