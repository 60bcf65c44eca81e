*.vo
*.vok
*.vos
*.glob
*.aux
.*.aux
*.cache
rocq/Makefile
rocq/Makefile.conf
rocq/.Makefile.d
rocq/.coqdeps.d
__pycache__/
