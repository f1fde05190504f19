#!/bin/sh
# Regenerate rocq/_CoqProject from the files under rocq/theories.
cd "$(dirname "$0")/../rocq" && { echo "-Q theories Verif"; find theories -name '*.v' | LC_ALL=C sort; } > _CoqProject.new && mv _CoqProject.new _CoqProject
