#!/bin/sh
# Regenerate the file list of rocq/_CoqProject (flags line kept).
cd /verif/rocq && { echo "-Q theories Verif"; find theories -name '*.v' | sort; } > _CoqProject
