#!/bin/bash
cd "$(dirname "$0")/../rocq" && { echo "-Q theories Verif"; ls theories/*.v; } > _CoqProject
