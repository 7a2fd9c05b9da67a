rocq/Makefile*
rocq/.Makefile*
*.vo
*.vok
*.vos
*.glob
.*.aux
__pycache__/
.lia.cache
.nia.cache
