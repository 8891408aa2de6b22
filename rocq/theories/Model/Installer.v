(** versioneer.py: [python versioneer.py setup], which puts a version file into the
    package and refers to it in the other files of the project.  Python is version 3 on
    Linux, characters are those below 128. *)
From Coq Require Import String Ascii ZArith NArith List Bool.
From Verif.Model Require Import Base Version Versioneer VersionSource.
Import ListNotations.
Open Scope string_scope.

(** ** Reading files in text mode *)

(** [open(f, "r").read()]: every kind of line end becomes a newline. *)
Fixpoint universal (s : string) : string :=
  match s with
  | EmptyString => ""
  | String a s' =>
      if Ascii.eqb a "013" then
        match s' with
        | String b _ => if Ascii.eqb b "010" then universal s' else String "010" (universal s')
        | EmptyString => nl
        end
      else String a (universal s')
  end.
(** A file that cannot be opened is read as an empty one. *)
Definition read (f : option string) : string := match f with Some s => universal s | None => "" end.

(** [open(f, "a").write(t)] *)
Definition append_to (f : option string) (t : string) : option string :=
  Some (match f with Some s => s ++ t | None => t end).

(** [p in s] *)
Fixpoint occurs (p s : string) : bool :=
  if is_prefix_of p s then true else match s with String _ s' => occurs p s' | EmptyString => false end.

(** [s.split()] *)
Fixpoint pieces_by (p : ascii -> bool) (s : string) : list string :=
  match s with
  | EmptyString => [""]
  | String a s' =>
      if p a then "" :: pieces_by p s'
      else match pieces_by p s' with
           | h :: t => String a h :: t
           | [] => [String a ""]
           end
  end.
Definition not_empty (s : string) : bool := match s with EmptyString => false | _ => true end.
Definition words (s : string) : list string := filter not_empty (pieces_by is_space s).

(** ** The files of the project *)

(** The contents of the files that the installer looks at, [None] for a file that does not
    exist. *)
Record tree : Type := Tree {
  setup_cfg : option string;
  version_py : option string;
  init_py : option string;
  manifest_in : option string;
  gitattributes : option string
}.

(** versioneer.py:335-361, what [get_config_from_root] finds in setup.cfg (simplification:
    the syntax of setup.cfg is not modelled, and all options but VCS, which is git, are
    given). *)
Record config : Type := Config {
  style : string;
  tag_prefix_of : string;
  parentdir_prefix_of : string;
  versionfile_source : string
}.
Inductive configuration : Type :=
| NoSection
| NoOption
| Found (cfg : config).

(** versioneer.py:1675-1688 *)
Fixpoint joined (lines : list string) : string :=
  match lines with
  | [] => ""
  | l :: ls => l ++ nl ++ joined ls
  end.
Definition sample_config : string := joined [
  "";
  "# See the docstring in versioneer.py for instructions. Note that you must";
  "# re-run 'versioneer.py setup' after changing this section, and commit the";
  "# resulting files.";
  "";
  "[versioneer]";
  "#VCS = git";
  "#style = pep440";
  "#versionfile_source =";
  "#versionfile_build =";
  "#tag_prefix =";
  "#parentdir_prefix =";
  ""].

(** versioneer.py:1690-1694 *)
Definition init_py_snippet : string := joined [
  "";
  "from ._version import get_versions";
  "__version__ = get_versions()['version']";
  "del get_versions"].

(** versioneer.py:421-941, the template of _version.py with the configuration filled in.
    Its other lines are those of the committed file (Model/VersionSource.v). *)
Definition setting (name v : string) : string := "    cfg." ++ name ++ " = " ++ quote ++ v ++ quote.
Definition keyword_line (name v : string) : string := "    " ++ name ++ " = " ++ quote ++ v ++ quote.
Definition long_version_py (cfg : config) : string := joined (
  lines_before ++
  [keyword_line "git_refnames" "$Format:%d$"; keyword_line "git_full" "$Format:%H$"; keyword_line "git_date" "$Format:%ci$"] ++
  firstn 14 lines_after ++
  [setting "style" (style cfg); setting "tag_prefix" (tag_prefix_of cfg);
   setting "parentdir_prefix" (parentdir_prefix_of cfg); setting "versionfile_source" (versionfile_source cfg)] ++
  skipn 18 lines_after)%list.

(** versioneer.py:1718-1736 *)
Definition install_init (init : option string) : option string :=
  match init with
  | None => None
  | Some _ => if occurs init_py_snippet (read init) then init else append_to init init_py_snippet
  end.

(** versioneer.py:1743-1752 *)
Definition simple_includes (manifest : option string) : list string :=
  flat_map (fun line => if is_prefix_of "include " line then tl (words line) else []) (readlines (read manifest)).
Definition has (w : string) (l : list string) : bool := existsb (String.eqb w) l.
(** versioneer.py:1757-1770 *)
Definition install_manifest (source : string) (manifest : option string) : option string :=
  let includes := simple_includes manifest in
  let manifest := if has "versioneer.py" includes then manifest
                  else append_to manifest ("include versioneer.py" ++ nl) in
  if has source includes then manifest else append_to manifest ("include " ++ source ++ nl).

(** versioneer.py:1140-1149 *)
Definition marking (source line : string) : bool :=
  if is_prefix_of source (strip line) then has "export-subst" (tl (words (strip line))) else false.
Definition is_present (source : string) (attributes : option string) : bool :=
  existsb (marking source) (readlines (read attributes)).
(** versioneer.py:1150-1154 *)
Definition install_attributes (source : string) (attributes : option string) : option string :=
  if is_present source attributes then attributes else append_to attributes (source ++ " export-subst" ++ nl).

(** The names of the files, for [git add]. *)
Inductive name : Type := ManifestIn | VersionPy | InitPy | VersioneerPy | GitAttributes.

(** versioneer.py:1697-1776 [do_setup] with 1120-1155 [do_vcs_install]: the files
    afterwards, the number returned, and the files given to [git add]. *)
Definition do_setup (c : configuration) (t : tree) : tree * Z * list name :=
  match c with
  | NoSection => (Tree (append_to (setup_cfg t) sample_config) (version_py t) (init_py t) (manifest_in t) (gitattributes t), 1%Z, [])
  | NoOption => (t, 1%Z, [])
  | Found cfg =>
      (Tree (setup_cfg t) (Some (long_version_py cfg)) (install_init (init_py t))
            (install_manifest (versionfile_source cfg) (manifest_in t))
            (install_attributes (versionfile_source cfg) (gitattributes t)),
       0%Z,
       [ManifestIn; VersionPy] ++ (match init_py t with Some _ => [InitPy] | None => [] end) ++ [VersioneerPy] ++
       (if is_present (versionfile_source cfg) (gitattributes t) then [] else [GitAttributes]))%list
  end.

(** versioneer.py:1779-1815 [scan_setup_py], the number of errors. *)
Definition scan_setup_py (text : string) : Z :=
  let lines := readlines (universal text) in
  let found s := existsb (occurs s) lines in
  let complete := found "import versioneer" && found "versioneer.get_cmdclass()" && found "versioneer.get_version()" in
  let setters := found "versioneer.VCS" || found "versioneer.versionfile_source" in
  ((if complete then 0 else 1) + (if setters then 1 else 0))%Z.

(** ** The files as they are committed *)

(** MANIFEST.in:1-7 *)
Definition committed_manifest : string := joined [
  "include LICENSE";
  "";
  "include etc/requirements*.txt";
  "";
  "include tests/resources *.csv";
  "include versioneer.py";
  "include trading_calendars/_version.py"].

(** .gitattributes:1 *)
Definition committed_attributes : string := joined [
  "calendars/_version.py export-subst"].

(** trading_calendars/__init__.py:1-42 *)
Definition committed_init : string := joined [
  "#";
  "# Copyright 2018 Quantopian, Inc.";
  "#";
  "# Licensed under the Apache License, Version 2.0 (the ""License"");";
  "# you may not use this file except in compliance with the License.";
  "# You may obtain a copy of the License at";
  "#";
  "#     http://www.apache.org/licenses/LICENSE-2.0";
  "#";
  "# Unless required by applicable law or agreed to in writing, software";
  "# distributed under the License is distributed on an ""AS IS"" BASIS,";
  "# WITHOUT WARRANTIES OR CONDITIONS OF ANY KIND, either express or implied.";
  "# See the License for the specific language governing permissions and";
  "# limitations under the License.";
  "";
  "from .trading_calendar import TradingCalendar";
  "from .calendar_utils import (";
  "    clear_calendars,";
  "    deregister_calendar,";
  "    get_calendar,";
  "    get_calendar_names,";
  "    register_calendar,";
  "    register_calendar_alias,";
  "    register_calendar_type,";
  "    resolve_alias,";
  ")";
  "";
  "__all__ = [";
  "    'clear_calendars',";
  "    'deregister_calendar',";
  "    'get_calendar',";
  "    'get_calendar_names',";
  "    'register_calendar',";
  "    'register_calendar_alias',";
  "    'register_calendar_type',";
  "    'resolve_alias',";
  "    'TradingCalendar',";
  "]";
  "";
  "from ._version import get_versions";
  "__version__ = get_versions()['version']";
  "del get_versions"].

(** setup.py:1-92 *)
Definition committed_setup_py : string := joined [
  "#!/usr/bin/env python";
  "#";
  "# Copyright 2018 Quantopian, Inc.";
  "#";
  "# Licensed under the Apache License, Version 2.0 (the ""License"");";
  "# you may not use this file except in compliance with the License.";
  "# You may obtain a copy of the License at";
  "#";
  "#     http://www.apache.org/licenses/LICENSE-2.0";
  "#";
  "# Unless required by applicable law or agreed to in writing, software";
  "# distributed under the License is distributed on an ""AS IS"" BASIS,";
  "# WITHOUT WARRANTIES OR CONDITIONS OF ANY KIND, either express or implied.";
  "# See the License for the specific language governing permissions and";
  "# limitations under the License.";
  "from setuptools import (";
  "    find_packages,";
  "    setup,";
  ")";
  "";
  "import versioneer";
  "";
  "DISTNAME = ""trading_calendars""";
  "DESCRIPTION = """"""trading_calendars is a Python library with \";
  "securities exchange calendars used by Quantopian's Zipline.""""""";
  "";
  "AUTHOR = ""Quantopian Inc""";
  "AUTHOR_EMAIL = ""opensource@quantopian.com""";
  "URL = ""https://github.com/quantopian/trading_calendars""";
  "LICENSE = ""Apache License, Version 2.0""";
  "";
  "classifiers = [";
  "    ""Development Status :: 4 - Beta"",";
  "    ""Programming Language :: Python"",";
  "    ""Programming Language :: Python :: 2"",";
  "    ""Programming Language :: Python :: 3"",";
  "    ""Programming Language :: Python :: 2.7"",";
  "    ""Programming Language :: Python :: 3.5"",";
  "    ""Programming Language :: Python :: 3.7"",";
  "    ""Programming Language :: Python :: 3.8"",";
  "    ""License :: OSI Approved :: Apache Software License"",";
  "    ""Intended Audience :: Science/Research"",";
  "    ""Topic :: Scientific/Engineering"",";
  "    ""Topic :: Scientific/Engineering :: Mathematics"",";
  "    ""Operating System :: OS Independent""";
  "]";
  "";
  "reqs = [";
  "    ""numpy"",";
  "    ""pandas"",";
  "    ""pyluach"",";
  "    ""python-dateutil"",";
  "    ""pytz"",";
  "    ""six"",";
  "    ""toolz"",";
  "]";
  "";
  "with open('README.md') as f:";
  "    LONG_DESCRIPTION = f.read()";
  "";
  "if __name__ == '__main__':";
  "    setup(";
  "        name=DISTNAME,";
  "        entry_points={";
  "            'console_scripts': [";
  "                'tcal = trading_calendars.tcal:main',";
  "            ],";
  "        },";
  "        cmdclass=versioneer.get_cmdclass(),";
  "        version=versioneer.get_version(),";
  "        author=AUTHOR,";
  "        author_email=AUTHOR_EMAIL,";
  "        description=DESCRIPTION,";
  "        license=LICENSE,";
  "        url=URL,";
  "        classifiers=classifiers,";
  "        long_description=LONG_DESCRIPTION,";
  "        long_description_content_type='text/markdown',";
  "        packages=find_packages(";
  "            include=['trading_calendars', 'trading_calendars.*']";
  "        ),";
  "        install_requires=reqs,";
  "        extras_require={";
  "            ""dev"": [";
  "                ""flake8"",";
  "                ""pytest"",";
  "                ""pytest-benchmark"",";
  "                ""parameterized"",";
  "                ""pytest-xdist"",";
  "            ],";
  "        },";
  "    )"].

(** setup.cfg:11-17 *)
Definition committed_config : config := Config "pep440" "" "trading_calendars-" "trading_calendars/_version.py".
