#!/bin/sh
# Regenerate the property files and the manifest.
cd "$(dirname "$0")/.."
python3 tools/genprops.py Field Scalar Laws Edwards Ristretto Group Misc Proto Code Api Naf Width Prog Rand Access Tools Ell Trace Script Doc DocTest Test Branch Safe Sage Leak LeakPt Wide Build Log Bench Raw Search Over Off Rel
python3 tools/genmanifest.py
